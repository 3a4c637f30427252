(** A reader for the part of Go that the GORM files use, and what such a file should say *)
From Coq Require Import String Ascii List NArith Bool.
From Verif.Model Require Import GoString Octopus.
From Verif.Spec Require Import Text Reading OctopusSpec GraphqlSpec ProtobufSpec.
Import ListNotations.
Local Open Scope string_scope.

(** ** Reading *)

(** a field: name, type, gorm tags *)
Notation gofield := (string * string * list string)%type.
(** a struct type with its TableName method *)
Record go_decl := mkDecl { gd_name : string; gd_embedded : list string; gd_fields : list gofield; gd_table : string }.
Record go_file := mkGoFile { gf_package : string; gf_imports : list string; gf_decls : list go_decl }.

Inductive member := Embedded (n : string) | Field (f : gofield).
Definition read_member (s : string) : option member :=
  match strip (String "009" "") s with
  | None => None
  | Some r =>
      match cut " " r with
      | None => Some (Embedded r)
      | Some (n, r') =>
          match cut " " r' with
          | None => Some (Field (n, r', []))
          | Some (ty, tag) =>
              match between "`gorm:""" """`" tag with
              | Some tags => Some (Field (n, ty, split_on ";" tags))
              | None => None
              end
          end
      end
  end.

(** "func (c *N) TableName() string { return "T" }" *)
Definition read_method (name s : string) : option string :=
  match between ("func (c *" ++ name ++ ") TableName() string { return ") " }" s with
  | Some r => between """" """" r
  | None => None
  end.

(** [open]: the struct that is being read *)
Fixpoint read_decls (open : option (string * list string * list gofield)) (ls : list string) : option (list go_decl) :=
  match open, ls with
  | None, [] => Some []
  | None, l :: ls' =>
      if String.eqb l "" then read_decls None ls'
      else match between "type " " struct {" l with
           | Some n => read_decls (Some (n, [], [])) ls'
           | None => None
           end
  | Some (n, es, fs), l :: ls' =>
      if String.eqb l "}" then
        match ls' with
        | blank :: method :: rest =>
            if String.eqb blank "" then
              match read_method n method, read_decls None rest with
              | Some t, Some ds => Some (mkDecl n es fs t :: ds)
              | _, _ => None
              end
            else None
        | _ => None
        end
      else match read_member l with
           | Some (Embedded e) => match fs with
                                  | [] => read_decls (Some (n, (es ++ [e])%list, [])) ls'
                                  | _ => None
                                  end
           | Some (Field f) => read_decls (Some (n, es, (fs ++ [f])%list)) ls'
           | None => None
           end
  | Some _, [] => None
  end.

Fixpoint read_go_imports (ls : list string) : option (list string * list string) :=
  match ls with
  | [] => None
  | l :: ls' =>
      if String.eqb l ")" then Some ([], ls')
      else match between (String "009" """") """" l, read_go_imports ls' with
           | Some i, Some (is, rest) => Some (i :: is, rest)
           | _, _ => None
           end
  end.

Definition read_go (s : string) : option go_file :=
  match lines s with
  | l1 :: l2 :: l3 :: ls =>
      if String.eqb l2 "" && String.eqb l3 "import (" then
        match strip "package " l1, read_go_imports ls with
        | Some p, Some (is, rest) => option_map (mkGoFile p is) (read_decls None rest)
        | _, _ => None
        end
      else None
  | _ => None
  end.

(** ** Embedding *)

(** [l'] consists of the elements of [l] that have the property, in order *)
Inductive kept {A} (P : A -> Prop) : list A -> list A -> Prop :=
| kept_nil : kept P [] []
| kept_yes : forall x l l', P x -> kept P l l' -> kept P (x :: l) (x :: l')
| kept_no : forall x l l', ~ P x -> kept P l l' -> kept P (x :: l) l'.

(** [x] is a column of one of the models [names]; [ms] are the known models *)
Definition covered (ms : list (string * list string)) (names : list string) (x : string) : Prop :=
  exists n cols, In n names /\ In (n, cols) ms /\ In x cols.

(** [names] are models whose columns the table has, no two of them share a column, and a model is left
    out only if a column is missing or taken *)
Definition embedding (ms : list (string * list string)) (t : table) (names : list string) : Prop :=
  NoDup names /\
  (forall n, In n names -> exists cols, In (n, cols) ms /\ forall x, In x cols -> In x (map c_name (t_cols t))) /\
  (forall n n' cols cols' x, In n names -> In n' names -> In (n, cols) ms -> In (n', cols') ms ->
     In x cols -> In x cols' -> n = n') /\
  (forall n cols, In (n, cols) ms -> ~ In n names ->
     exists x, In x cols /\ (~ In x (map c_name (t_cols t)) \/ covered ms names x)).

(** the model [cols] can be used for [t] *)
Definition fits_table (t : table) (cols : list string) : Prop :=
  forall x, In x cols -> In x (map c_name (t_cols t)).

(** ** What the file should say *)

Definition texts : list string := ["char"; "varchar"; "text8"; "text16"; "text24"; "text32"].
(** column types, the Go type if not null, the Go type if nullable *)
Definition go_types : list (list string * string * string) :=
  [(texts, "string", "null.String");
   (["boolean"], "bool", "null.Bool");
   (["int8"], "int8", "null.Int"); (["int16"], "int16", "null.Int");
   (["int24"; "int32"], "int32", "null.Int"); (["int64"], "int64", "null.Int");
   (["decimal"], "decimal.Decimal", "decimal.NullDecimal");
   (["float"], "float32", "null.Float"); (["double"], "float64", "null.Float");
   (["datetime"; "date"; "time"], "time.Time", "null.Time");
   (["blob8"; "blob16"; "blob24"; "blob32"], "[]byte", "[]byte");
   (["bit"], "byte", "*byte"); (["enum"], "string", "string")].
Definition go_typed (c : column) (ty : string) : Prop :=
  (exists ts a b, In (ts, a, b) go_types /\ In (c_type c) ts /\ ty = if c_notnull c then a else b) \/
  (ty = "interface{}" /\ forall ts a b, In (ts, a, b) go_types -> ~ In (c_type c) ts).

Definition digit (c : ascii) : Prop := In c (list_ascii_of_string "0123456789").
Definition starts_with_digit (s : string) : Prop := exists c r, s = String c r /\ digit c.

(** position [k] (from 1) is the first one of [x] *)
Definition first_at (l : list string) (x : string) (k : N) : Prop :=
  exists a b, l = (a ++ x :: b)%list /\ ~ In x a /\ k = N.of_nat (S (length a)).

Section Described.
Variables camel snake prefix : string -> string.
Variable unwanted : list string.
Variables (pointer : bool) (suffix : string).

(** camel case, ID instead of Id at the end *)
Definition camel_id (x b : string) : Prop :=
  (exists r, camel x = r ++ "Id" /\ b = r ++ "ID") \/ ((forall r, camel x <> r ++ "Id") /\ b = camel x).
(** a name does not start with a digit *)
Definition field_named (x n : string) : Prop :=
  exists b, camel_id x b /\ (starts_with_digit b -> n = "_" ++ b) /\ (~ starts_with_digit b -> n = b).

(** the tags of a column *)
Inductive tag_for (t : table) (c : column) : string -> Prop :=
| tag_column : forall b, camel_id (c_name c) b -> snake (camel (c_name c)) <> c_name c \/ starts_with_digit b ->
    tag_for t c ("column:" ++ c_name c)
| tag_size : In (c_type c) ["bit"; "char"; "varchar"] -> (c_size c > 0)%N ->
    tag_for t c ("type:" ++ c_type c ++ "(" ++ itoa (c_size c) ++ ")")
| tag_scale : In (c_type c) ["double"; "float"; "decimal"] -> (c_size c > 0)%N -> (c_scale c > 0)%N ->
    tag_for t c ("type:" ++ c_type c ++ "(" ++ itoa (c_size c) ++ "," ++ itoa (c_scale c) ++ ")")
| tag_pk : c_pk c = true -> tag_for t c "primary_key"
| tag_unique : c_uq c = true -> length (filter c_uq (t_cols t)) = 1 -> tag_for t c "unique"
| tag_uniques : c_uq c = true -> length (filter c_uq (t_cols t)) > 1 ->
    tag_for t c ("unique_index:" ++ t_name t ++ suffix)
| tag_index : forall ix, In ix (t_indices t) -> ix_cols ix = [c_name c] -> tag_for t c ("index:" ++ ix_name ix)
| tag_indices : forall ix k, In ix (t_indices t) -> length (ix_cols ix) > 1 -> first_at (ix_cols ix) (c_name c) k ->
    tag_for t c ("index:" ++ ix_name ix ++ ",priority:" ++ itoa k)
| tag_autoinc : c_autoinc c = true -> tag_for t c "auto_increment"
| tag_notnull : c_notnull c = true -> c_autoinc c = false -> tag_for t c "not null".

Definition gorm_field (t : table) (c : column) (f : gofield) : Prop :=
  let '(n, ty, tags) := f in
  field_named (c_name c) n /\ go_typed c ty /\ forall x, In x tags <-> tag_for t c x.

(** the reference of [c] leads to column [d] of table [u] *)
Definition column_target (cs : list column) (n : string) (d : column) : Prop :=
  exists l r, cs = (l ++ d :: r)%list /\ c_name d = n /\ forall e, In e l -> c_name e <> n.
Definition leads_to (ts : list table) (c : column) (r : reference) (u : table) (d : column) : Prop :=
  c_ref c = Some r /\ target ts (ref_table r) u /\ column_target (t_cols u) (ref_column r) d.
Definition association (ts : list table) (c : column) (f : gofield) : Prop :=
  exists r u d fk rf, leads_to ts c r u d /\ field_named (c_name c) fk /\ field_named (c_name d) rf /\
    f = (type_named camel prefix unwanted u,
         (if pointer then "*" else "") ++ (if String.eqb (ref_rel r) "1:n" then "[]" else "")
           ++ type_named camel prefix unwanted u,
         ["foreignKey:" ++ fk; "references:" ++ rf]).

Definition decl_described (ms : list (string * list string)) (ts : list table) (t : table) (d : go_decl) : Prop :=
  gd_name d = type_named camel prefix unwanted t /\ gd_table d = t_name t /\
  embedding ms t (gd_embedded d) /\
  exists cs fs rs assocs, gd_fields d = (fs ++ assocs)%list /\
    kept (fun c => ~ covered ms (gd_embedded d) (c_name c)) (t_cols t) cs /\ Forall2 (gorm_field t) cs fs /\
    kept (fun c => exists r u e, leads_to ts c r u e) (t_cols t) rs /\ Forall2 (association ts) rs assocs.

(** names that can stand in the file *)
Definition go_names_ok (ts selected : list table) : Prop :=
  one_line suffix /\ ~ char_in ";" suffix /\
  (forall t, In t ts -> word (type_named camel prefix unwanted t) /\
     forall c n, In c (t_cols t) -> field_named (c_name c) n -> word n) /\
  (forall t, In t selected -> word (t_name t) /\
     (forall c, In c (t_cols t) -> word (c_name c) /\ In (c_type c) octopus_types) /\
     (forall ix, In ix (t_indices t) -> word (ix_name ix))).
End Described.

(** the names of models *)
Definition model_name_ok (n : string) : Prop :=
  n <> "" /\ forall c, char_in c n -> word_char c = true \/ c = "."%char.
Definition models_ok (ms : list (string * list string)) : Prop :=
  NoDup (map fst ms) /\ forall n cols, In (n, cols) ms -> model_name_ok n.

(** ** Packages *)

Definition packages : list (string * string) :=
  [("null", "gopkg.in/guregu/null.v4"); ("decimal", "github.com/shopspring/decimal"); ("time", "time");
   ("gorm", "github.com/jinzhu/gorm")].
(** a qualified type, or a qualified embedded type, in the file *)
Definition type_in_file (f : go_file) (ty : string) : Prop :=
  exists d, In d (gf_decls f) /\ (In ty (gd_embedded d) \/ exists n tags, In (n, ty, tags) (gd_fields d)).
Definition uses_package (f : go_file) (q : string) : Prop :=
  exists ty r, type_in_file f ty /\ ty = q ++ "." ++ r.
(** every package that is used is imported *)
Definition imports_enough (f : go_file) : Prop :=
  forall q path, In (q, path) packages -> uses_package f q -> In path (gf_imports f).
(** every import is used; Go rejects a file with an unused import *)
Definition imports_used (f : go_file) : Prop :=
  forall path, In path (gf_imports f) -> exists q, In (q, path) packages /\ uses_package f q.
(** the types that become a type of package null if the column is nullable *)
Definition null_types : list string :=
  (texts ++ ["boolean"; "int8"; "int16"; "int24"; "int32"; "int64"; "float"; "double"; "datetime"; "date"; "time"])%list.
(** the only qualified model of these packages is gorm.Model *)
Definition models_known (ms : list (string * list string)) : Prop :=
  forall n cols q path r, In (n, cols) ms -> In (q, path) packages -> n = q ++ "." ++ r -> n = "gorm.Model".
(** no two models can be used for [t] *)
Definition one_fits (m : list (string * list string)) (t : table) : Prop :=
  forall n cols n' cols', In (n, cols) m -> In (n', cols') m -> fits_table t cols -> fits_table t cols' -> n = n'.
