(** Concrete comparisons made by both diffs *)
From Coq Require Import String Ascii List NArith Bool.
From Verif.Model Require Import GoString Util Octopus DiffCore Diff Liquibase.
From Verif.Spec Require Import Order OctopusSpec DiffSpec LiquibaseSpec AgreeSpec.
From Verif.Proofs Require Import ServerProofs ReverseCases Agree.
Import ListNotations.
Local Open Scope string_scope.

Definition gx_opt := mkDiffOption None "me" "_uq" true.
Definition gx_lq := mkLqOption None "" "_uq" true.
Definition gx_changes (from to : schema) : option (list change) :=
  option_map all_changes (get_diff (fun l => l) (fun _ l => l) gx_opt from to).
Definition gx_log (float_ok : string -> bool) (from to : schema) : option (list lq_change) :=
  option_map lq_all (lq_diff float_ok (fun l => l) (fun _ l => l) gx_lq from to).

Definition gx_counter (auto : bool) := mkCol "n" "int32" "" 0 0 false false false auto "" "" [] None.
Definition gx_of (c : column) := mkSchema "" "" "" [vx_table "t" "" [c]].

Lemma added_only_in_log : forall float_ok,
  gx_changes vx_one vx_two = Some [] /\
  gx_log float_ok vx_one vx_two = Some [LqAddColumn "t" [mkLqColumn "b" "varchar(40)" None None "" no_default "a"]].
Proof. intros float_ok. split; vm_compute; reflexivity. Qed.

Lemma autoinc_not_in_log : forall float_ok,
  gx_changes (gx_of (gx_counter true)) (gx_of (gx_counter false)) =
    Some [SetAutoIncrement (vx_table "t" "" [gx_counter false]) (gx_counter false)] /\
  gx_log float_ok (gx_of (gx_counter true)) (gx_of (gx_counter false)) = Some [].
Proof. intros float_ok. split; vm_compute; reflexivity. Qed.

Definition gx_plain := vx_col "k" "varchar" 5 false false false "".
Definition gx_unique := vx_col "k" "varchar" 5 false false true "".
Lemma drop_only_in_log : forall float_ok,
  gx_changes (gx_of gx_plain) (gx_of gx_unique) = Some [CreateUniqueConstraint "t_uq" (vx_table "t" "" [gx_unique])] /\
  gx_log float_ok (gx_of gx_plain) (gx_of gx_unique) = Some [LqDropUniqueConstraint "t" "t_uq"; LqAddUniqueConstraint "t" "k" "t_uq"].
Proof. intros float_ok. split; vm_compute; reflexivity. Qed.

Definition gx_number (d : string) := vx_col "n" "decimal" 10 false false false d.
Lemma log_fails :
  gx_changes (gx_of (gx_number "1")) (gx_of (gx_number "one")) =
    Some [SetDefaultValue (vx_table "t" "" [gx_number "one"]) (gx_number "one")] /\
  gx_log (string_forallb is_digit) (gx_of (gx_number "1")) (gx_of (gx_number "one")) = None.
Proof. split; vm_compute; reflexivity. Qed.

(** the schemas of C114, with one change of each kind but comments *)
Lemma agree_case : forall float_ok,
  NoDup (map t_name (s_tables vx_from)) /\
  exists log chs, gx_log float_ok vx_from vx_to = Some log /\ gx_changes vx_from vx_to = Some chs /\ tells_all vx_from log chs /\
  List.length log = 16 /\ filter (in_both vx_from) log <> log /\
  map vx_kind (filter in_log chs) =
    ["type of user.age from int to long"; "not null user.age"; "default user.age 1";
     "rename user.a to c"; "rename user.b to d"; "key of user"; "create constraint user_uq"; "drop old";
     "drop constraint first_uq"; "rename first to one"; "create constraint one_uq";
     "drop constraint second_uq"; "rename second to two"; "create constraint two_uq"; "create new"].
Proof.
  intros float_ok. split; [exact (proj1 (proj1 vx_distinct))|].
  destruct (lq_diff float_ok (fun l => l) (fun _ l => l) gx_lq vx_from vx_to) as [css'|] eqn:L; [|vm_compute in L; discriminate].
  destruct (diffs_agree float_ok (fun l => l) (fun _ l => l) gx_opt gx_lq vx_from vx_to css'
    (fun l => Permutation.Permutation_refl l) (proj1 (proj1 vx_distinct)) eq_refl eq_refl eq_refl L) as (css & G & T).
  exists (lq_all css'), (all_changes css). unfold gx_log, gx_changes. rewrite L, G. split; [reflexivity|]. split; [reflexivity|].
  split; [exact T|]. clear T. vm_compute in L. injection L as <-. vm_compute in G. injection G as <-.
  split; [vm_compute; reflexivity|]. split; [vm_compute; discriminate|]. vm_compute. reflexivity.
Qed.
