(** Comparisons where nil slices are not empty slices (C148) *)
From Coq Require Import String Ascii List NArith Bool Sorting.Permutation.
From Verif.Model Require Import GoString Util Octopus DiffCore Diff Liquibase Json NilValues.
From Verif.Spec Require Import NilListSpec.
From Verif.Proofs Require Import StringLemmas OctopusProofs DiffCoreProofs.
Import ListNotations.
Local Open Scope string_scope.

Section Marked.
  Context {A M : Type}.
  Variables (lookup : string -> option A) (same : A -> A -> bool) (same2 : A * M -> A * M -> bool) (om : string -> M) (nm : nat -> M).
  Let lookup2 n := option_map (fun t => (t, om n)) (lookup n).
  Let strip (r : nat * ((A * M) * (A * M))) : nat * (A * A) := (fst r, (fst (fst (snd r)), fst (snd (snd r)))).

  Lemma match_marked : forall i a names,
    (forall n r, In n names -> lookup n = Some r -> same2 (a, nm i) (r, om n) = same a r) ->
    match_removed lookup2 same2 (a, nm i) names = option_map (fun p => (fst p, (snd p, om (fst p)))) (match_removed lookup same a names).
  Proof.
    intros i a names. induction names as [|n names IH]; intros H; [reflexivity|]. cbn [match_removed]. unfold lookup2 at 1.
    assert (T : forall n0 r, In n0 names -> lookup n0 = Some r -> same2 (a, nm i) (r, om n0) = same a r) by (intros; apply H; [now right|assumption]).
    destruct (lookup n) as [r|] eqn:L; cbn [option_map]; [|now apply IH].
    rewrite (H n r (or_introl eq_refl) L). destruct (same a r); [reflexivity|now apply IH].
  Qed.
  Lemma find_marked : forall added removed,
    (forall i a n r, In (i, a) added -> In n removed -> lookup n = Some r -> same2 (a, nm i) (r, om n) = same a r) ->
    exists found, find_renamed lookup2 same2 (map (fun it => (fst it, (snd it, nm (fst it)))) added) removed
                  = (found, snd (find_renamed lookup same added removed)) /\
      map strip found = fst (find_renamed lookup same added removed).
  Proof.
    induction added as [|[i a] added IH]; intros removed H; [exists []; split; reflexivity|].
    cbn [map find_renamed fst snd]. rewrite match_marked.
    2:{ intros n r I L. apply H; [now left| |assumption]. now apply (proj1 (ss_slice_in _ _)). }
    destruct (match_removed lookup same a (ss_slice removed)) as [[n r]|]; cbn [option_map fst snd].
    - destruct (IH (ss_remove removed n)) as [found [F S]].
      { intros j b k q I J L. apply (H j); [now right| |assumption]. unfold ss_remove in J. now apply filter_In in J as [J _]. }
      rewrite F. destruct (find_renamed lookup same added (ss_remove removed n)) as [m rest]. cbn [fst snd] in *.
      eexists. split; [reflexivity|]. cbn [map]. now rewrite S.
    - apply IH. intros j b k q I. apply H. now right.
  Qed.
End Marked.

Lemma places_eq : forall cs vs vs',
  (forall i c, nth_error cs i = Some c -> c_values c = [] -> nth_error vs i = nth_error vs' i) ->
  flat_map (fun p : column * bool => match c_values (fst p) with [] => [snd p] | _ => [] end) (combine cs vs) =
  flat_map (fun p : column * bool => match c_values (fst p) with [] => [snd p] | _ => [] end) (combine cs vs').
Proof.
  induction cs as [|c cs IH]; intros vs vs' H; [reflexivity|].
  assert (T : forall i c0, nth_error cs i = Some c0 -> c_values c0 = [] -> nth_error vs (S i) = nth_error vs' (S i)) by (intros i; apply (H (S i))).
  specialize (H 0 c eq_refl).
  assert (N : forall l : list column, combine l (@nil bool) = []) by (intros []; reflexivity).
  destruct vs as [|v vs]; destruct vs' as [|v' vs']; cbn [combine flat_map fst snd nth_error] in *; [reflexivity| | |].
  - destruct (c_values c) eqn:E; [discriminate (H eq_refl)|]. rewrite <- (IH [] vs'); [now rewrite N|].
    intros i c0 X Y. rewrite <- (T i c0 X Y). now destruct i.
  - destruct (c_values c) eqn:E; [discriminate (H eq_refl)|]. rewrite (IH vs []); [now rewrite N|].
    intros i c0 X Y. rewrite (T i c0 X Y). now destruct i.
  - rewrite (IH vs vs' T). destruct (c_values c) eqn:E; [|reflexivity]. now injection (H eq_refl) as ->.
Qed.
Lemma same_places : forall t t' m m', t_cols t = t_cols t' -> same_nils t m m' -> nil_places (t, m) = nil_places (t', m').
Proof.
  intros t t' m m' E [C V]. unfold nil_places. cbn [fst snd]. rewrite <- E. f_equal.
  - destruct (t_cols t); [now rewrite C|reflexivity].
  - now apply places_eq.
Qed.
Lemma memory_same : forall t t' m m', (t_cols t = t_cols t' -> same_nils t m m') -> same_memory (t, m) (t', m') = same_columns t t'.
Proof.
  intros t t' m m' H. unfold same_memory. cbn [fst snd]. destruct (same_columns t t') eqn:E; [|reflexivity]. cbn [andb].
  apply (list_eqb_spec column_eqb column_eqb_spec) in E. apply (list_eqb_spec Bool.eqb eqb_true_iff). apply same_places; auto.
Qed.

Lemma memory_diff : forall CS dt dc rc cc nm om ord f from to, agree nm om from to ->
  @diff_memory CS dt dc rc cc nm om ord f from to = diff_schemas dt dc rc cc ord f from to.
Proof.
  intros CS dt dc rc cc nm om ord f from to H. unfold diff_memory, diff_schemas.
  destruct (scan_tables dt f (s_tables from) (with_pos (s_tables to)) new_id (ss_new (map t_name (s_tables from)))) as [[[[css1 id1] removed] added]|] eqn:S; [|reflexivity].
  destruct (scan_spec dt dc rc cc _ _ _ _ _ _ _ _ _ S) as [_ [A _]].
  destruct (find_marked (tables_by_name (s_tables from)) same_columns same_memory om nm added removed) as [found [F E]].
  { intros i a n r I J L. rewrite A in I. apply filter_In in I as [I K]. apply with_pos_nth in I. cbn in K.
    apply tables_by_name_some in L as [L <-]. apply memory_same. intros C. apply (H i a r I L); [|exact C].
    unfold is_added in K. cbn [snd] in K. apply andb_true_iff in K as [_ K]. intros X.
    apply negb_true_iff in K. unfold in_names in K. apply str_in_iff in X. congruence. }
  rewrite F, E. destruct (find_renamed (tables_by_name (s_tables from)) same_columns added removed) as [m rest]. reflexivity.
Qed.
Lemma report_memory : forall nm om ordT ordC o from to, agree nm om from to ->
  get_diff_memory nm om ordT ordC o from to = get_diff ordT ordC o from to.
Proof. intros. apply memory_diff. assumption. Qed.
Lemma log_memory : forall float nm om ordT ordC o from to, agree nm om from to ->
  lq_diff_memory float nm om ordT ordC o from to = lq_diff float ordT ordC o from to.
Proof. intros. apply memory_diff. assumption. Qed.
