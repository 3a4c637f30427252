(** What a table means in MySQL terms, independent of the exporter's text *)
From Coq Require Import String Ascii List NArith ZArith Bool.
From Verif.Model Require Import GoString Octopus Mysql.
From Verif.Spec Require Import Text MysqlGrammar.
Import ListNotations.
Local Open Scope string_scope.

(** ** Text that survives without escaping *)

Definition plain_text (s : string) : Prop := ~ char_in "'" s /\ ~ char_in backslash s.
Definition plain_quoted (s : string) : Prop := s <> "" /\ ~ char_in "`" s.
(** unquoted identifiers *)
Definition plain_ident (reserved : string -> bool) (s : string) : Prop :=
  all_chars (fun c => is_word_char c = true) s /\ is_ident reserved s = true.

(** a name of CURRENT_TIMESTAMP *)
Definition now_name (f : string) : Prop := In (to_lower f) now_words.

Definition digits (s : string) : Prop := s <> "" /\ all_chars (fun c => is_digit c = true) s.

(** ** Types *)

(** The MySQL type of a column; [None] if there is no valid DDL for it that the exporter
    could write. Lengths are only meaningful where MySQL takes them. *)
Definition sql_type (c : column) : option field_type :=
  let size := Z.of_N (c_size c) in
  let scale := Z.of_N (c_scale c) in
  let bare tp w := Some (mkFT tp (-1) (-1) false [] w w) in
  let len tp w :=
    if N.eqb (c_size c) 0 then bare tp w
    else if N.eqb (c_scale c) 0 then Some (mkFT tp size (-1) false [] w w) else None in
  let len_dec tp w := Some (mkFT tp size scale false [] w w) in
  let elems tp w := match c_values c with [] => None | vs => Some (mkFT tp (-1) (-1) false vs w w) end in
  match c_type c with
  | "binary" => Some (mkFT TpString (-1) (-1) true [] "binary" "binary")
  | "bit" => if N.eqb (c_size c) 0 then Some (mkFT TpBit 1 (-1) false [] "bit" "bit") else len TpBit "bit"
  | "blob8" => bare TpTinyBlob "tinyblob"
  | "blob16" => bare TpBlob "blob"
  | "blob24" => bare TpMediumBlob "mediumblob"
  | "blob32" => bare TpLongBlob "longblob"
  | "boolean" => Some (mkFT TpBit 1 (-1) false [] "bit" "bit")
  | "char" => len TpString "char"
  | "date" => bare TpDate "date"
  | "datetime" => bare TpDatetime "datetime"
  | "decimal" =>
      if negb (N.eqb (c_size c) 0) && negb (N.eqb (c_scale c) 0) then len_dec TpNewDecimal "decimal"
      else len TpNewDecimal "decimal"
  | "double" =>
      if N.eqb (c_size c) 0 then bare TpDouble "double"
      else if N.eqb (c_scale c) 0 then None else len_dec TpDouble "double"
  | "enum" => elems TpEnum "enum"
  | "float" =>
      if N.eqb (c_size c) 0 then bare TpFloat "float"
      else if N.eqb (c_scale c) 0 then
        if N.leb (c_size c) 24 then bare TpFloat "float"
        else if N.leb (c_size c) 53 then bare TpDouble "float" else None
      else len_dec TpFloat "float"
  | "int8" => len TpTiny "tinyint"
  | "int16" => len TpShort "smallint"
  | "int24" => len TpInt24 "mediumint"
  | "int32" => len TpLong "int"
  | "int64" => len TpLonglong "bigint"
  | "json" => bare TpJSON "json"
  | "set" => elems TpSet "set"
  | "text8" => bare TpTinyBlob "tinytext"
  | "text16" => bare TpBlob "text"
  | "text24" => bare TpMediumBlob "mediumtext"
  | "text32" => bare TpLongBlob "longtext"
  | "time" => bare TpDuration "time"
  | "varchar" => if N.eqb (c_size c) 0 then None else len TpVarchar "varchar"
  | "year" => bare TpYear "year"
  | _ => None
  end.

(** the text of a type on its own *)
Definition read_type_text (s : string) : option field_type :=
  match lex_sql s with
  | Some ts => match read_type_toks ts with Some (ft, []) => Some ft | _ => None end
  | None => None
  end.

(** Which type, size, scale and values survive an export followed by an import *)
Definition type_survives (c : column) : Prop :=
  let n := c_size c in
  let s := c_scale c in
  let nothing := n = 0%N /\ s = 0%N /\ c_values c = [] in
  let length_only := s = 0%N /\ c_values c = [] in
  match c_type c with
  | "boolean" | "binary" | "blob8" | "blob16" | "blob24" | "blob32" | "date" | "datetime" | "json"
  | "text8" | "text16" | "text24" | "text32" | "time" | "year" => nothing
  | "bit" => length_only /\ (2 <= n)%N
  | "char" | "int16" | "int24" | "int32" | "int64" => length_only
  | "int8" => length_only /\ n <> 1%N
  | "varchar" => length_only /\ n <> 0%N
  | "decimal" => c_values c = [] /\ (n = 0%N -> s = 0%N)
  | "double" | "float" => c_values c = [] /\ (n = 0%N <-> s = 0%N)
  | "enum" | "set" => n = 0%N /\ s = 0%N /\ c_values c <> []
  | _ => False
  end.

(** ** Values *)

(** [plain_value ty v e]: a default [v] of a column of type [ty] stands for expression [e] *)
Inductive plain_value (ty : string) : string -> my_expr -> Prop :=
| pv_now : forall f, now_name f -> all_chars (fun c => is_word_char c = true) f ->
    plain_value ty ("fn::" ++ f) (EFunc "CURRENT_TIMESTAMP")
| pv_text : forall v, ty = "char" \/ ty = "varchar" -> v <> "" -> plain_text v -> String.prefix "fn::" v = false ->
    plain_value ty v (EValue (Some v))
| pv_int : forall v n, ty <> "char" -> ty <> "varchar" -> digits v -> digits_to_N v = Some n ->
    plain_value ty v (EValue (Some (itoa n)))
| pv_dec : forall a b, ty <> "char" -> ty <> "varchar" -> digits a -> digits b ->
    plain_value ty (a ++ "." ++ b) (EValue (Some (a ++ "." ++ b)))
| pv_null : forall v, ty <> "char" -> ty <> "varchar" -> to_lower v = "null" -> plain_value ty v (EValue None).

Inductive default_means (c : column) : list col_option -> Prop :=
| dm_none : c_default c = "" -> default_means c []
| dm_some : forall e, plain_value (c_type c) (c_default c) e -> default_means c [ODefault e].

Inductive update_means (c : column) : list col_option -> Prop :=
| um_none : c_onupdate c = "" -> update_means c []
| um_some : forall f, c_onupdate c = "fn::" ++ f -> now_name f -> all_chars (fun c => is_word_char c = true) f ->
    update_means c [OOnUpdate (EFunc "CURRENT_TIMESTAMP")].

(** ** Columns and tables *)

Definition column_means (c : column) (cd : col_def) : Prop :=
  cd_name cd = c_name c /\ sql_type c = Some (cd_type cd) /\
  exists ds us, default_means c ds /\ update_means c us /\
    cd_options cd = ((if c_notnull c then [ONotNull] else []) ++ (if c_autoinc c then [OAutoIncrement] else []) ++
                     ds ++ us ++ (if String.eqb (c_desc c) "" then [] else [OComment (c_desc c)]))%list.

Definition key_if (names : list string) (k : list string -> my_constraint) : list my_constraint :=
  match names with [] => [] | _ => [k names] end.

Definition table_means (suffix : string) (t : table) (st : my_stmt) : Prop :=
  exists cds, Forall2 column_means (t_cols t) cds /\
    st = SCreateTable (t_name t) cds
      (key_if (map c_name (filter c_pk (t_cols t))) KPrimaryKey ++
       key_if (map c_name (filter c_uq (t_cols t))) (KUniq (t_name t ++ suffix)) ++
       map (fun i => KIndex (ix_name i) (ix_cols i)) (t_indices t))%list.

(** names, comments, values and types for which the exporter's text is valid *)
Record plain_column (reserved : string -> bool) (c : column) : Prop := {
  pc_name : plain_ident reserved (c_name c);
  pc_type : In (c_type c) col_types;
  pc_values : Forall plain_text (c_values c);
  pc_sql : sql_type c <> None;
  pc_default : exists ds, default_means c ds;
  pc_update : exists us, update_means c us;
  pc_desc : plain_text (c_desc c)
}.

Record plain_table (reserved : string -> bool) (suffix : string) (t : table) : Prop := {
  pt_name : plain_ident reserved (t_name t);
  pt_suffix : ~ char_in "`" suffix;
  pt_cols : t_cols t <> [] /\ Forall (plain_column reserved) (t_cols t);
  pt_indices : Forall (fun i => plain_quoted (ix_name i) /\ ix_cols i <> [] /\ Forall plain_quoted (ix_cols i)) (t_indices t)
}.

(** ** What an import gives back *)

(** without references, which the DDL does not have *)
Definition without_ref (c : column) : column :=
  mkCol (c_name c) (c_type c) (c_desc c) (c_size c) (c_scale c) (c_notnull c) (c_pk c) (c_uq c)
        (c_autoinc c) (c_default c) (c_onupdate c) (c_values c) None.

(** without description, group and class *)
Definition table_core (t : table) : table :=
  mkTable (t_name t) (map without_ref (t_cols t)) "" "" "" (t_indices t).

(** values that the importer stores as they were *)
Definition stable_default (c : column) : Prop :=
  c_default c = "" \/ c_default c = "fn::CURRENT_TIMESTAMP" \/
  plain_value (c_type c) (c_default c) (EValue (Some (c_default c))).
Definition stable_update (c : column) : Prop :=
  c_onupdate c = "" \/ c_onupdate c = "fn::CURRENT_TIMESTAMP".

Record survives (c : column) : Prop := {
  sv_size : (c_size c < 65536)%N /\ (c_scale c < 65536)%N;
  sv_type : type_survives c;
  sv_default : stable_default c;
  sv_update : stable_update c;
  sv_autoinc : c_autoinc c = true -> c_notnull c = true
}.

(** ** The text of a table *)

(** definitions one per line, with commas between them *)
Definition ddl_text (name : string) (defs : list string) : string :=
  "CREATE TABLE IF NOT EXISTS " ++ name ++ " (" ++ newline ++
  (match defs with [] => "" | ds => "  " ++ join ("," ++ newline ++ "  ") ds ++ newline end) ++ ");" ++ newline.

Definition quoted (n : string) : string := "`" ++ n ++ "`".

(** the key line for the columns with a flag: none if no column has it *)
Definition key_line (flag : column -> bool) (t : table) (what : string) (line : list string) : Prop :=
  (forall c, In c (t_cols t) -> flag c = false) /\ line = [] \/
  (exists c, In c (t_cols t) /\ flag c = true) /\
  line = [what ++ " (" ++ join ", " (map (fun c => quoted (c_name c)) (filter flag (t_cols t))) ++ ")"].

(** the definitions of a table: one per column, then the keys *)
Record layout (suffix : string) (t : table) (cols keys : list string) : Prop := {
  ly_cols : Forall2 (fun c d => exists rest, d = c_name c ++ " " ++ to_mysql_column_type c ++ rest) (t_cols t) cols;
  ly_keys : exists pk uq ix, keys = (pk ++ uq ++ ix)%list /\
    key_line c_pk t "PRIMARY KEY" pk /\
    key_line c_uq t ("UNIQUE KEY " ++ quoted (t_name t ++ suffix)) uq /\
    Forall2 (fun i d => d = "INDEX " ++ quoted (ix_name i) ++ " (" ++ join ", " (map quoted (ix_cols i)) ++ ")")
      (t_indices t) ix
}.

(** two columns the database cannot tell apart (references and keys aside) *)
Definition same_column (c1 c2 : column) : Prop :=
  c_name c1 = c_name c2 /\ sql_type c1 = sql_type c2 /\ c_desc c1 = c_desc c2 /\
  c_notnull c1 = c_notnull c2 /\ c_autoinc c1 = c_autoinc c2 /\
  (exists ds, default_means c1 ds /\ default_means c2 ds) /\ (exists us, update_means c1 us /\ update_means c2 us).
