(** Which attributes of a schema a command looks at *)
From Coq Require Import String List NArith Bool.
From Verif.Model Require Import Octopus Cli.
From Verif.Spec Require Import OptionsSpec.
Import ListNotations.
Local Open Scope string_scope.

(** the attributes of a schema, of its tables and of their columns. [CRef]: whether the column refers to
    another one, and in which table. *)
Inductive attribute :=
| SAuthor | SName | SVersion
| TName | TDesc | TGroup | TClass | TIndices
| CName | CType | CDesc | CSize | CScale | CNotNull | CPk | CUnique | CAutoInc | CDefault | COnUpdate | CValues
| CRef | CRefColumn | CRefRel.

(** two columns, tables and schemas that have the same attributes among those of [A], and differ at will in
    the others. The number of tables and of the columns of each table is the same. *)
Definition same_column (A : attribute -> Prop) (c d : column) : Prop :=
  (A CName -> c_name c = c_name d) /\ (A CType -> c_type c = c_type d) /\ (A CDesc -> c_desc c = c_desc d) /\
  (A CSize -> c_size c = c_size d) /\ (A CScale -> c_scale c = c_scale d) /\
  (A CNotNull -> c_notnull c = c_notnull d) /\ (A CPk -> c_pk c = c_pk d) /\ (A CUnique -> c_uq c = c_uq d) /\
  (A CAutoInc -> c_autoinc c = c_autoinc d) /\ (A CDefault -> c_default c = c_default d) /\
  (A COnUpdate -> c_onupdate c = c_onupdate d) /\ (A CValues -> c_values c = c_values d) /\
  (A CRef -> option_map ref_table (c_ref c) = option_map ref_table (c_ref d)) /\
  (A CRefColumn -> option_map ref_column (c_ref c) = option_map ref_column (c_ref d)) /\
  (A CRefRel -> option_map ref_rel (c_ref c) = option_map ref_rel (c_ref d)).
Definition same_table (A : attribute -> Prop) (t u : table) : Prop :=
  (A TName -> t_name t = t_name u) /\ (A TDesc -> t_desc t = t_desc u) /\ (A TGroup -> t_group t = t_group u) /\
  (A TClass -> t_class t = t_class u) /\ (A TIndices -> t_indices t = t_indices u) /\
  Forall2 (same_column A) (t_cols t) (t_cols u).
Definition same_schema (A : attribute -> Prop) (s r : schema) : Prop :=
  (A SAuthor -> s_author s = s_author r) /\ (A SName -> s_name s = s_name r) /\
  (A SVersion -> s_version s = s_version r) /\ Forall2 (same_table A) (s_tables s) (s_tables r).

(** the attributes whose value can be seen in what a command writes; [None]: the command does not read one
    schema *)
Definition looks_at (c : command) : option (list attribute) :=
  match c with
  | ExportDbml =>
      Some [TName; CName; CType; CDesc; CSize; CScale; CNotNull; CPk; CUnique; CDefault; CRef; CRefColumn; CRefRel]
  | ExportQuickdbd =>
      Some [TName; TDesc; CName; CType; CDesc; CNotNull; CPk; CUnique; CAutoInc; CDefault; CRef; CRefColumn; CRefRel]
  | ExportMysql =>
      Some [TName; TGroup; TIndices; CName; CType; CDesc; CSize; CScale; CNotNull; CPk; CUnique; CAutoInc; CDefault;
            COnUpdate; CValues]
  | ExportXlsx =>
      Some [SAuthor; SName; SVersion; TName; TDesc; TGroup; TClass; TIndices; CName; CType; CDesc; CSize; CScale;
            CNotNull; CPk; CUnique; CAutoInc; CDefault; COnUpdate; CRef; CRefColumn]
  | GenerateGorm =>
      Some [TName; TGroup; TClass; TIndices; CName; CType; CSize; CScale; CNotNull; CPk; CUnique; CAutoInc; CRef;
            CRefColumn; CRefRel]
  | GenerateGraphql => Some [SName; SVersion; TName; TClass; CName; CType; CNotNull; CPk]
  | GenerateKt =>
      Some [TName; TGroup; TClass; CName; CType; CSize; CScale; CNotNull; CPk; CUnique; CAutoInc; CRef; CRefColumn]
  | GenerateLiquibase =>
      Some [SAuthor; TName; TDesc; TGroup; CName; CType; CDesc; CSize; CScale; CNotNull; CPk; CUnique; CAutoInc;
            CDefault]
  | GeneratePlantuml => Some [TName; CName; CType; CNotNull; CPk; CUnique; CRef; CRefRel]
  | GeneratePb => Some [TName; TGroup; CName; CType; CRef]
  | GenerateSqlalchemy =>
      Some [TName; TGroup; TClass; CName; CType; CSize; CScale; CNotNull; CPk; CUnique; CAutoInc]
  | _ => None
  end.

(** ** Comparisons *)

Definition column_attributes : list attribute :=
  [CName; CType; CDesc; CSize; CScale; CNotNull; CPk; CUnique; CAutoInc; CDefault; COnUpdate; CValues; CRef; CRefColumn;
   CRefRel].

(** the attributes of the old and of the new schema whose value can be seen in what a comparison writes *)
Definition compares (c : command) : option (list attribute * list attribute) :=
  match c with
  | DiffFlyway => Some (app [TName; TDesc] column_attributes, app [TName; TDesc; TGroup; TIndices] column_attributes)
  | DiffLiquibase => Some (app [TName; TDesc] column_attributes, app [SAuthor; TName; TDesc; TGroup] column_attributes)
  | DiffMd => Some (app [SVersion; TName; TDesc] column_attributes, app [SVersion; TName; TDesc; TGroup] column_attributes)
  | _ => None
  end.

(** the order in which Go goes through the renamed tables depends on the keys of the map only, which are pointers *)
Definition by_key {A} (ord : list (nat * A) -> list (nat * A)) : Prop :=
  forall (g : A -> A) l, ord (map (fun x => (fst x, g (snd x))) l) = map (fun x => (fst x, g (snd x))) (ord l).

(** there is a comparison whose result is another one if only this attribute of the old, or of the new schema changes *)
Definition decides (c : command) (a : attribute) (old : bool) : Prop :=
  exists w fs fs' v nf nt s s' r r', real_world w /\ by_key (w_ord_tables w) /\ v "from" = Some nf /\ v "to" = Some nt /\
    load_file w fs nf = Loaded s /\ load_file w fs nt = Loaded r /\ load_file w fs' nf = Loaded s' /\ load_file w fs' nt = Loaded r' /\
    (if old then same_schema (fun b => b <> a) s s' /\ r' = r else s' = s /\ same_schema (fun b => b <> a) r r') /\
    snd (run w fs c v) = Done /\ snd (run w fs' c v) = Done /\ fst (run w fs c v) <> fst (run w fs' c v).
