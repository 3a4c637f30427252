(** Schemas whose columns have got other names (C150) *)
From Coq Require Import String List NArith Bool Sorting.Permutation.
From Verif.Model Require Import Octopus Diff Liquibase.
Import ListNotations.
Local Open Scope string_scope.

Definition column_called (n : string) (c : column) : column :=
  mkCol n (c_type c) (c_desc c) (c_size c) (c_scale c) (c_notnull c) (c_pk c) (c_uq c) (c_autoinc c) (c_default c) (c_onupdate c)
    (c_values c) (c_ref c).
Definition column_by (ren : string -> string) (c : column) : column := column_called (ren (c_name c)) c.
Definition column_moved (ren : string -> string) (c : column) : bool := negb (String.eqb (ren (c_name c)) (c_name c)).

(** Nothing but names of columns differs; [ren] has the new names. The columns may be in another order. *)
Definition columns_renamed (ren : string -> string) (t t' : table) : Prop :=
  t_name t' = t_name t /\ t_desc t' = t_desc t /\ Permutation (t_cols t') (map (column_by ren) (t_cols t)).
(** no new name is the old name of another column *)
Definition fresh_columns (ren : string -> string) (t : table) : Prop :=
  forall c, In c (t_cols t) -> column_moved ren c = true -> ~ In (ren (c_name c)) (map c_name (t_cols t)).
(** columns that have everything in common but name, values and reference, and the description if it does not count *)
Definition alike (descriptions : bool) (c d : column) : Prop :=
  c_type c = c_type d /\ (descriptions = true -> c_desc c = c_desc d) /\ c_size c = c_size d /\ c_scale c = c_scale d /\
  c_notnull c = c_notnull d /\ c_pk c = c_pk d /\ c_uq c = c_uq d /\ c_autoinc c = c_autoinc d /\ c_default c = c_default d /\
  c_onupdate c = c_onupdate d.
(** no two of the renamed columns are alike *)
Definition columns_apart (descriptions : bool) (ren : string -> string) (t : table) : Prop :=
  forall c d, In c (t_cols t) -> In d (t_cols t) -> column_moved ren c = true -> column_moved ren d = true -> alike descriptions c d -> c = d.

(** a renamed column is in the key, or unique *)
Definition key_moved (ren : string -> string) (t : table) : bool := existsb (fun c => column_moved ren c && c_pk c) (t_cols t).
Definition unique_moved (ren : string -> string) (t : table) : bool := existsb (fun c => column_moved ren c && c_uq c) (t_cols t).
(** the changes of a table: a change for each renamed column, in some order, and key and unique constraint if they have one *)
Definition table_renaming (suffix : string) (ren : string -> string) (t t' : table) (chs : list change) : Prop :=
  exists olds, Permutation olds (filter (column_moved ren) (t_cols t)) /\
  chs = ((if unique_moved ren t then [DropUniqueConstraint (t_name t ++ suffix) t] else []) ++
         map (fun c => RenameColumn t' c (column_by ren c)) olds ++
         (if key_moved ren t then [UpdatePrimaryKey t t'] else []) ++
         (if unique_moved ren t then [CreateUniqueConstraint (t_name t ++ suffix) t'] else []))%list.
(** the same in Liquibase; [get_liquibase_type] is the text for the type *)
Definition names_of (mark : column -> bool) (t : table) (names : list string) : Prop :=
  NoDup names /\ forall n, In n names <-> exists c, In c (t_cols t) /\ mark c = true /\ c_name c = n.
Definition log_renaming (suffix : string) (ren : string -> string) (t t' : table) (chs : list lq_change) : Prop :=
  exists olds keys uniques, Permutation olds (filter (column_moved ren) (t_cols t)) /\ names_of c_pk t' keys /\ names_of c_uq t' uniques /\
  chs = ((if unique_moved ren t then [LqDropUniqueConstraint (t_name t) (t_name t ++ suffix)] else []) ++
         flat_map (fun c => LqRenameColumn (t_name t) (ren (c_name c)) (c_name c) (get_liquibase_type c) ::
           (if c_notnull c then [LqAddNotNullConstraint (t_name t) (ren (c_name c)) (get_liquibase_type c) (c_default c)] else [])) olds ++
         (if key_moved ren t then [LqDropPrimaryKey (t_name t); LqAddPrimaryKey (t_name t) (String.concat ", " keys)] else []) ++
         (if unique_moved ren t then [LqAddUniqueConstraint (t_name t) (String.concat ", " uniques) (t_name t ++ suffix)] else []))%list.
