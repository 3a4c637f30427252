(** Names in generated files: what has to be distinct, and when the names of a schema stay apart (C95, C96) *)
From Coq Require Import String Ascii List NArith Bool.
From Verif.Model Require Import GoString Octopus.
From Verif.Spec Require Import Text Reading OctopusSpec GraphqlSpec ProtobufSpec GormSpec.
From Verif.Spec Require SqlalchemySpec KotlinSpec.
Import ListNotations.
Local Open Scope string_scope.

(** ** Members *)

(** protobuf.dev, Language Guide: "field names must be unique within the message" *)
Definition pb_members_distinct (l : list pitem) : Prop :=
  forall n fs, In (ProtobufSpec.PMessage n fs) l -> NoDup (map rf_name fs).

(** The Go Programming Language Specification, "Struct types": "the unqualified type name acts as the field name", and
    field names are unique; "Method declarations": they differ from the names of the methods *)
Definition unqualified (n : string) : string := last (split_on "." n) "".
Definition go_member_names (d : go_decl) : list string :=
  "TableName" :: (map unqualified (gd_embedded d) ++ map (fun f => fst (fst f)) (gd_fields d))%list.
Definition go_members_distinct (f : go_file) : Prop :=
  forall d, In d (gf_decls f) -> NoDup (go_member_names d).

(** spec.graphql.org, 3.6: "The field must have a unique name within that Object type" *)
Definition gql_members_distinct (l : list gdef) : Prop :=
  forall n fs, In (GType n fs) l -> NoDup (map fst fs).

(** a second assignment to an attribute replaces the first; the classes of the tables have base [Base] *)
Definition assigned (m : SqlalchemySpec.member) : list string :=
  match m with SqlalchemySpec.MAssign x _ => [x] | _ => [] end.
Definition py_members_distinct (f : list SqlalchemySpec.stmt) : Prop :=
  forall n body, In (SqlalchemySpec.PClass n "Base" body) f -> NoDup (flat_map assigned body).

(** no conflicting declarations among the properties of a class *)
Definition kt_members_distinct (f : KotlinSpec.kfile) : Prop :=
  forall annos n params super, In (KotlinSpec.DClass annos n params super) (KotlinSpec.ki_decls f) ->
    NoDup (map KotlinSpec.kp_name params).

(** ** Types *)

Definition pb_messages_named (l : list pitem) : list string :=
  flat_map (fun x => match x with ProtobufSpec.PMessage n _ => [n] | _ => [] end) l.
Definition gql_types_named (l : list gdef) : list string :=
  flat_map (fun x => match x with GType n _ => [n] | GSchema _ => [] end) l.
(** the names a Python file binds; the class of a table binds a name of its own *)
Definition py_bound (f : list SqlalchemySpec.stmt) : list string :=
  flat_map (fun b => match b with
                     | SqlalchemySpec.PImport _ names => names
                     | SqlalchemySpec.PAssign x _ => [x]
                     | SqlalchemySpec.PClass n _ _ => [n]
                     end) f.
Definition py_types_distinct (f : list SqlalchemySpec.stmt) : Prop :=
  forall pre n body post, f = (pre ++ SqlalchemySpec.PClass n "Base" body :: post)%list -> ~ In n (py_bound (pre ++ post)).
(** the names that are imported or defined for the classes *)
Definition py_taken : list string := (["Base"; "TZDateTime"] ++ map fst SqlalchemySpec.homes)%list.

(** ** Names that stay apart *)

(** a naming function gives different names for different names *)
Definition apart (f : string -> string) (l : list string) : Prop :=
  forall a b, In a l -> In b l -> f a = f b -> a = b.
Definition column_names (t : table) : list string := map c_name (t_cols t).
(** tables have different names, and so have the columns of a table *)
Definition distinct_names (s : schema) : Prop :=
  NoDup (map t_name (s_tables s)) /\ forall t, In t (s_tables s) -> NoDup (column_names t).

Section Apart.
Variables camel lower_camel snake prefix : string -> string.
Variable unwanted : list string.

(** the fields of the columns, and those of the references *)
Definition pb_apart (ts : list table) (t : table) : Prop :=
  NoDup (column_names t) /\ apart lower_camel (column_names t) /\
  NoDup (map ref_table (table_refs t)) /\
  (forall r u r' u', In r (table_refs t) -> In r' (table_refs t) -> target ts (ref_table r) u -> target ts (ref_table r') u' ->
     lower_camel (message_named camel prefix unwanted u) = lower_camel (message_named camel prefix unwanted u') ->
     ref_table r = ref_table r') /\
  (forall c r u, In c (t_cols t) -> In r (table_refs t) -> target ts (ref_table r) u ->
     lower_camel (c_name c) <> lower_camel (message_named camel prefix unwanted u)).

(** a name in the struct of [t]: of a column, of a reference, or of a model that can be embedded *)
Inductive go_named (ms : list (string * list string)) (ts : list table) (t : table) : string -> string -> Prop :=
| gn_column : forall c n, In c (t_cols t) -> field_named camel (c_name c) n -> go_named ms ts t ("column " ++ c_name c) n
| gn_reference : forall c r u d, In c (t_cols t) -> leads_to ts c r u d ->
    go_named ms ts t ("reference of " ++ c_name c) (type_named camel prefix unwanted u)
| gn_model : forall m cols, In (m, cols) ms -> fits_table t cols -> go_named ms ts t ("model " ++ m) (unqualified m)
| gn_method : go_named ms ts t "method" "TableName".
Definition go_apart (ms : list (string * list string)) (ts : list table) (t : table) : Prop :=
  NoDup (column_names t) /\
  forall a b n, go_named ms ts t a n -> go_named ms ts t b n -> a = b.

Definition lower_snake (n : string) : string := snake (to_lower n).
Definition py_apart (t : table) : Prop :=
  NoDup (column_names t) /\ apart lower_snake (column_names t) /\
  forall a b, In a (column_names t) -> In b (column_names t) ->
    (In (lower_snake a) SqlalchemySpec.python_keywords -> lower_snake b <> lower_snake a ++ "_") /\
    lower_snake a <> "__tablename__".
End Apart.

(** ** Snake case *)

(** words of small letters, digits at the end of a word, joined by single underscores *)
Inductive inside := AtStart | InLetters | InDigits.
Fixpoint snake_from (i : inside) (s : string) : bool :=
  match s with
  | "" => match i with AtStart => false | _ => true end
  | String c s' =>
      if is_lower c then match i with InDigits => false | _ => snake_from InLetters s' end
      else if is_digit c then match i with AtStart => false | _ => snake_from InDigits s' end
      else if Ascii.eqb c "_" then match i with AtStart => false | _ => snake_from AtStart s' end
      else false
  end.
Definition snake_case (s : string) : Prop := snake_from AtStart s = true.
