(** Lists of columns with nil pointers: which one is met first *)
From Coq Require Import String List Bool.
From Verif.Model Require Import Octopus NilColumns.
From Verif.Spec Require Import OctopusSpec.
Import ListNotations.

(** all columns, in the order of the tables *)
Definition all_pcols (ts : list ptable) : list (option column) := flat_map pt_cols ts.
Definition good (p : option column) : Prop := exists c, p = Some c /\ repairable c.
(** a nil pointer comes before the first column that cannot be made valid *)
Definition nil_first (ps : list (option column)) : Prop :=
  exists before after, ps = (before ++ None :: after)%list /\ Forall good before.

(** What becomes of one column *)
Definition put_right (p q : option column) : Prop :=
  exists c c', p = Some c /\ q = Some c' /\ column_repaired c c' /\ valid_column c'.
(** and of all: those before the first one that cannot be made valid are put right, those after it stay as they are, nil
    pointers among them; nothing is said of itself *)
Definition stops_at (ps qs : list (option column)) : Prop :=
  Forall2 put_right ps qs \/
  exists before c after before' c',
    ps = (before ++ Some c :: after)%list /\ qs = (before' ++ Some c' :: after)%list /\
    Forall2 put_right before before' /\ ~ repairable c.

(** a table without nil pointers *)
Definition lift (t : table) : ptable := mkPTable (with_cols t []) (map Some (t_cols t)).
