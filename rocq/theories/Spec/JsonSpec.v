(** UTF-8 text, and the strings of a schema *)
From Coq Require Import String Ascii List NArith Bool.
From Verif.Model Require Import GoString Octopus Json.
Import ListNotations.
Local Open Scope string_scope.

Definition byte (lo hi : N) (c : ascii) : Prop := (lo <= N_of_ascii c <= hi)%N.

(** The Unicode Standard, Table 3-7, Well-Formed UTF-8 Byte Sequences: one character *)
Inductive character : string -> Prop :=
| ch_1 a : byte 0 127 a -> character (String a "")
| ch_2 a b : byte 194 223 a -> byte 128 191 b -> character (String a (String b ""))
| ch_3a a b c : byte 224 224 a -> byte 160 191 b -> byte 128 191 c -> character (String a (String b (String c "")))
| ch_3b a b c : byte 225 236 a -> byte 128 191 b -> byte 128 191 c -> character (String a (String b (String c "")))
| ch_3c a b c : byte 237 237 a -> byte 128 159 b -> byte 128 191 c -> character (String a (String b (String c "")))
| ch_3d a b c : byte 238 239 a -> byte 128 191 b -> byte 128 191 c -> character (String a (String b (String c "")))
| ch_4a a b c d : byte 240 240 a -> byte 144 191 b -> byte 128 191 c -> byte 128 191 d ->
    character (String a (String b (String c (String d ""))))
| ch_4b a b c d : byte 241 243 a -> byte 128 191 b -> byte 128 191 c -> byte 128 191 d ->
    character (String a (String b (String c (String d ""))))
| ch_4c a b c d : byte 244 244 a -> byte 128 143 b -> byte 128 191 c -> byte 128 191 d ->
    character (String a (String b (String c (String d "")))).

(** UTF-8 text *)
Inductive utf8 : string -> Prop :=
| utf8_nil : utf8 ""
| utf8_cons x s : character x -> utf8 s -> utf8 (x ++ s).

(** U+FFFD *)
Definition replacement_character : string := String "239" (String "191" (String "189" "")).

(** [s'] is [s] with every byte that is not part of a character replaced by U+FFFD *)
Inductive cleaned : string -> string -> Prop :=
| cl_nil : cleaned "" ""
| cl_char x s s' : character x -> cleaned s s' -> cleaned (x ++ s) (x ++ s')
| cl_byte a s s' : (forall x r, character x -> String a s <> x ++ r) -> cleaned s s' ->
    cleaned (String a s) (replacement_character ++ s').

(** ** The strings of a schema *)
Definition ref_strings (r : option reference) : list string :=
  match r with Some r => [ref_table r; ref_column r; ref_rel r] | None => [] end.
Definition column_strings (c : column) : list string :=
  ([c_name c; c_type c; c_desc c; c_default c; c_onupdate c] ++ c_values c ++ ref_strings (c_ref c))%list.
Definition table_strings (t : table) : list string :=
  ([t_name t; t_desc t; t_group t; t_class t] ++ flat_map column_strings (t_cols t)
   ++ flat_map (fun i => ix_name i :: ix_cols i) (t_indices t))%list.
Definition schema_strings (s : schema) : list string :=
  ([s_author s; s_name s; s_version s] ++ flat_map table_strings (s_tables s))%list.

Definition schema_utf8 (s : schema) : Prop := forall x, In x (schema_strings s) -> utf8 x.

(** ** The same schema with its strings cleaned *)
Definition cleaned_ref (r r' : reference) : Prop :=
  cleaned (ref_table r) (ref_table r') /\ cleaned (ref_column r) (ref_column r') /\ cleaned (ref_rel r) (ref_rel r').
Definition cleaned_column (c c' : column) : Prop :=
  cleaned (c_name c) (c_name c') /\ cleaned (c_type c) (c_type c') /\ cleaned (c_desc c) (c_desc c') /\
  cleaned (c_default c) (c_default c') /\ cleaned (c_onupdate c) (c_onupdate c') /\
  Forall2 cleaned (c_values c) (c_values c') /\
  match c_ref c, c_ref c' with
  | None, None => True
  | Some r, Some r' => cleaned_ref r r'
  | _, _ => False
  end /\
  c_size c' = c_size c /\ c_scale c' = c_scale c /\ c_notnull c' = c_notnull c /\ c_pk c' = c_pk c /\
  c_uq c' = c_uq c /\ c_autoinc c' = c_autoinc c.
Definition cleaned_index (i i' : index) : Prop :=
  cleaned (ix_name i) (ix_name i') /\ Forall2 cleaned (ix_cols i) (ix_cols i').
Definition cleaned_table (t t' : table) : Prop :=
  cleaned (t_name t) (t_name t') /\ cleaned (t_desc t) (t_desc t') /\ cleaned (t_group t) (t_group t') /\
  cleaned (t_class t) (t_class t') /\ Forall2 cleaned_column (t_cols t) (t_cols t') /\
  Forall2 cleaned_index (t_indices t) (t_indices t').
Definition cleaned_schema (s s' : schema) : Prop :=
  cleaned (s_author s) (s_author s') /\ cleaned (s_name s) (s_name s') /\ cleaned (s_version s) (s_version s') /\
  Forall2 cleaned_table (s_tables s) (s_tables s').
