From Coq Require Import String Ascii List NArith Bool Lia Sorting.Permutation Sorting.Sorted Arith.
From Verif.Model Require Import GoString Util.
From Verif.Spec Require Import Order Text UtilSpec UtilRun.
From Verif.Proofs Require Import ListLemmas StringLemmas.
Import ListNotations.
Local Open Scope string_scope.
Local Open Scope list_scope.

(** * StringSet *)

Definition ev_step (s : sset) (e : set_event) : sset :=
  match e with EvIn k => ss_add s k | EvOut k => ss_remove s k | EvClear => [] end.

Lemma ss_contains_iff : forall s k, ss_contains s k = true <-> In k s.
Proof. intros. apply str_in_iff. Qed.

Lemma ss_add_in : forall s v k, In k (ss_add s v) <-> k = v \/ In k s.
Proof.
  intros. unfold ss_add. destruct (ss_contains s v) eqn:E.
  - apply ss_contains_iff in E. split; [tauto|]. intros [->|]; auto.
  - rewrite in_app_iff. simpl. intuition.
Qed.

Lemma ss_add_nodup : forall s v, NoDup s -> NoDup (ss_add s v).
Proof.
  intros. unfold ss_add. destruct (ss_contains s v) eqn:E; auto.
  apply NoDup_rev in H. rewrite <- (rev_involutive (s ++ [v])). apply NoDup_rev.
  rewrite rev_app_distr. simpl. constructor; auto.
  rewrite <- in_rev. intros Hin. apply ss_contains_iff in Hin. congruence.
Qed.

Lemma ss_remove_in : forall s v k, In k (ss_remove s v) <-> In k s /\ k <> v.
Proof.
  intros. unfold ss_remove. rewrite filter_In, negb_true_iff, String.eqb_neq. reflexivity.
Qed.

Lemma ss_remove_nodup : forall s v, NoDup s -> NoDup (ss_remove s v).
Proof. intros. now apply NoDup_filter. Qed.

Lemma ss_run_events : forall items h,
  ss_run items h = fold_left ev_step (history items h) [].
Proof.
  intros. unfold ss_run, history. rewrite fold_left_app.
  assert (A : forall l s, fold_left ev_step (map EvIn l) s = fold_left ss_add l s).
  { induction l; simpl; auto. }
  assert (R : forall l s, fold_left ev_step (map EvOut l) s = fold_left ss_remove l s).
  { induction l; simpl; auto. }
  rewrite A. fold (ss_new items). generalize (ss_new items).
  induction h as [|o h IH]; simpl; intros s; auto.
  rewrite fold_left_app, IH. f_equal. destruct o; simpl; auto.
  - now rewrite A.
  - now rewrite R.
Qed.

Lemma fold_ev_nodup : forall es s, NoDup s -> NoDup (fold_left ev_step es s).
Proof.
  induction es; simpl; intros; auto. apply IHes.
  destruct a; simpl; [now apply ss_add_nodup|now apply ss_remove_nodup|constructor].
Qed.

Lemma is_member_snoc : forall es e k, is_member (es ++ [e]) k <->
  (e = EvIn k \/ (is_member es k /\ e <> EvOut k /\ e <> EvClear)).
Proof.
  intros. split.
  - intros [b [a [H1 [H2 H3]]]].
    destruct a as [|x a _] using rev_ind.
    + apply app_inj_tail in H1. destruct H1; subst. now left.
    + rewrite app_comm_cons, app_assoc in H1. apply app_inj_tail in H1. destruct H1; subst.
      rewrite in_app_iff in H2, H3. simpl in *. right. split; [|tauto].
      exists b, a. tauto.
  - intros [->|[[b [a [-> [H2 H3]]]] [H4 H5]]].
    + exists es, []. simpl. tauto.
    + exists b, (a ++ [e]). rewrite <- app_assoc. simpl. rewrite !in_app_iff. simpl.
      split; auto. split; intros [|[|[]]]; tauto.
Qed.

Lemma fold_ev_member : forall es k, In k (fold_left ev_step es []) <-> is_member es k.
Proof.
  intros es. induction es as [|e es IH] using rev_ind; intros k.
  - simpl. split; [tauto|]. intros [b [a [H _]]]. destruct b; discriminate.
  - rewrite fold_left_app, is_member_snoc. simpl. destruct e; simpl.
    + rewrite ss_add_in, IH. split.
      * intros [->|]; auto. right. repeat split; auto; discriminate.
      * intros [E|]; [inversion E; auto|tauto].
    + rewrite ss_remove_in, IH. split.
      * intros [H1 H2]. right. repeat split; auto; congruence.
      * intros [E|[H1 [H2 H3]]]; [discriminate|]. split; auto. congruence.
    + split; [tauto|]. intros [E|[_ [_ H]]]; [discriminate|congruence].
Qed.

Lemma ss_run_member : forall items h k,
  ss_contains (ss_run items h) k = true <-> is_member (history items h) k.
Proof. intros. rewrite ss_contains_iff, ss_run_events. apply fold_ev_member. Qed.

Lemma ss_run_nodup : forall items h, NoDup (ss_run items h).
Proof. intros. rewrite ss_run_events. apply fold_ev_nodup. constructor. Qed.

Lemma ss_contains_any_iff : forall s ks,
  ss_contains_any s ks = true <-> exists k, In k ks /\ ss_contains s k = true.
Proof.
  induction ks; simpl.
  - split; [discriminate|]. intros [k [[] _]].
  - destruct (ss_contains s a) eqn:E.
    + split; intros _; [exists a|]; auto.
    + rewrite IHks. split; intros [k [H1 H2]].
      * exists k. auto.
      * destruct H1; [congruence|]. exists k. auto.
Qed.

Lemma ss_contains_all_iff : forall s ks,
  ss_contains_all s ks = true <-> forall k, In k ks -> ss_contains s k = true.
Proof.
  induction ks; simpl.
  - split; [intros _ k []|reflexivity].
  - destruct (ss_contains s a) eqn:E; simpl.
    + rewrite IHks. split.
      * intros H k [<-|]; auto.
      * auto.
    + split; [discriminate|]. intros H. rewrite <- E. auto.
Qed.

Lemma ss_equals_iff : forall a b, NoDup a -> NoDup b ->
  (ss_equals a b = true <-> forall k, ss_contains a k = ss_contains b k).
Proof.
  intros a b Ha Hb. unfold ss_equals. rewrite andb_true_iff, Nat.eqb_eq, forallb_forall. split.
  - intros [L H] k. apply Bool.eq_iff_eq_true. rewrite !ss_contains_iff.
    assert (I : incl a b) by (intros x Hx; apply ss_contains_iff; auto).
    split; [apply I|]. apply (NoDup_length_incl Ha); auto. lia.
  - intros H.
    assert (E : forall k, In k a <-> In k b) by (intros; rewrite <- !ss_contains_iff, H; reflexivity).
    split.
    + apply Nat.le_antisymm; apply NoDup_incl_length; auto; intros x; apply E.
    + intros x Hx. rewrite <- H. now apply ss_contains_iff.
Qed.

Lemma ss_slice_ord_spec : forall ord s, (forall l, Permutation (ord l) l) -> NoDup s ->
  strictly_increasing (ss_slice_ord ord s) /\
  (forall k, In k (ss_slice_ord ord s) <-> ss_contains s k = true).
Proof.
  intros. unfold ss_slice_ord. split.
  - apply sort_strings_nodup_strict. eapply Permutation_NoDup; [|exact H0]. symmetry. apply H.
  - intros. rewrite ss_contains_iff. split; apply Permutation_in.
    + rewrite sort_strings_perm. apply H.
    + symmetry. rewrite sort_strings_perm. apply H.
Qed.

Lemma ss_slice_ord_irrelevant : forall ord s, (forall l, Permutation (ord l) l) -> NoDup s ->
  ss_slice_ord ord s = ss_slice s.
Proof.
  intros.
  destruct (ss_slice_ord_spec ord s H H0) as [A B].
  destruct (ss_slice_ord_spec (fun l => l) s (fun l => Permutation_refl l) H0) as [C D].
  apply strictly_increasing_unique; auto. intros. rewrite B. unfold ss_slice. rewrite D. reflexivity.
Qed.

Lemma stringset_semantics : forall items h,
  let s := ss_run items h in
  (forall k, ss_contains s k = true <-> is_member (history items h) k) /\
  (forall ks, ss_contains_any s ks = true <-> exists k, In k ks /\ is_member (history items h) k) /\
  (forall ks, ss_contains_all s ks = true <-> forall k, In k ks -> is_member (history items h) k) /\
  (forall ord, (forall l, Permutation (ord l) l) ->
     strictly_increasing (ss_slice_ord ord s) /\
     (forall k, In k (ss_slice_ord ord s) <-> is_member (history items h) k) /\
     ss_size s = length (ss_slice_ord ord s) /\
     forall sep, ss_join s sep = join sep (ss_slice_ord ord s)) /\
  (forall items' h', ss_equals s (ss_run items' h') = true <->
     forall k, is_member (history items h) k <-> is_member (history items' h') k).
Proof.
  intros items h s. subst s.
  split; [intros; apply ss_run_member|].
  split; [|split; [|split]].
  - intros. rewrite ss_contains_any_iff. split; intros [k [H1 H2]]; exists k; split; auto;
      now apply ss_run_member.
  - intros. rewrite ss_contains_all_iff. split; intros H k Hk; apply ss_run_member; auto.
  - intros ord Ho. pose proof (ss_run_nodup items h) as Nd.
    destruct (ss_slice_ord_spec ord _ Ho Nd) as [A B].
    split; auto. split; [intros; rewrite B; apply ss_run_member|]. split.
    + unfold ss_slice_ord, ss_size. apply Permutation_length. symmetry.
      rewrite sort_strings_perm. apply Ho.
    + intros. unfold ss_join. now rewrite (ss_slice_ord_irrelevant ord).
  - intros. rewrite ss_equals_iff by apply ss_run_nodup. split; intros H k.
    + rewrite <- !ss_run_member, H. reflexivity.
    + apply Bool.eq_iff_eq_true. rewrite !ss_run_member. apply H.
Qed.

(** * MultiMap *)
Section MM.
  Context {K V : Type} (keqb : K -> K -> bool) (veqb : V -> V -> bool).
  Hypothesis keqb_spec : forall a b, keqb a b = true <-> a = b.
  Hypothesis veqb_spec : forall a b, veqb a b = true <-> a = b.

  Let get := @mm_get K V keqb.

  Lemma keqb_refl : forall k, keqb k k = true.
  Proof. intros. now apply keqb_spec. Qed.
  Lemma keqb_neq : forall a b, keqb a b = false <-> a <> b.
  Proof.
    intros. rewrite <- keqb_spec. destruct (keqb a b); split; intros; try discriminate; auto; congruence.
  Qed.

  Lemma mm_get_set : forall m k vs k',
    get (mm_set keqb m k vs) k' = if keqb k' k then Some vs else get m k'.
  Proof.
    unfold get. induction m as [|[a l] m IH]; simpl; intros.
    - reflexivity.
    - destruct (keqb k a) eqn:E; simpl.
      + apply keqb_spec in E. subst. destruct (keqb k' a) eqn:E2; auto.
      + destruct (keqb k' a) eqn:E2.
        * apply keqb_spec in E2. subst. apply keqb_neq in E.
          replace (keqb a k) with false; auto. symmetry. apply keqb_neq. congruence.
        * apply IH.
  Qed.

  Lemma mm_get_remove : forall m k k',
    get (mm_remove_key keqb m k) k' = if keqb k' k then None else get m k'.
  Proof.
    unfold get, mm_remove_key. induction m as [|[a l] m IH]; simpl; intros.
    - now destruct (keqb k' k).
    - destruct (keqb k a) eqn:E; simpl.
      + apply keqb_spec in E. subst. rewrite IH. destruct (keqb k' a); auto.
      + rewrite IH. destruct (keqb k' a) eqn:E2; auto.
        apply keqb_spec in E2. subst.
        replace (keqb a k) with false; auto. symmetry. apply keqb_neq. apply keqb_neq in E. congruence.
  Qed.

  Lemma to_opt_snoc : forall (l : list V) v, to_opt (l ++ [v]) = Some (l ++ [v]).
  Proof. destruct l; reflexivity. Qed.

  Lemma mm_run_get : forall (h : list (mm_op K V)) (k : K) vs, values_of h k vs -> get (mm_run keqb h) k = to_opt vs.
  Proof.
    unfold mm_run. induction 1; rewrite ?fold_left_app; simpl; auto.
    - unfold mm_put. rewrite mm_get_set, keqb_refl, to_opt_snoc.
      fold get. rewrite IHvalues_of. destruct vs; reflexivity.
    - unfold mm_put. rewrite mm_get_set.
      replace (keqb k k') with false; auto. symmetry. apply keqb_neq. congruence.
    - rewrite mm_get_remove, keqb_refl. reflexivity.
    - rewrite mm_get_remove. replace (keqb k k') with false; auto. symmetry. apply keqb_neq. congruence.
  Qed.

  (** the specification gives a result for every history *)
  Lemma values_of_total : forall (h : list (mm_op K V)) (k : K), exists vs : list V, values_of h k vs.
  Proof.
    intros h k. induction h as [|o h [vs IH]] using rev_ind.
    - exists []. constructor.
    - destruct o as [k0 v|k0|].
      + destruct (keqb k0 k) eqn:E.
        * apply keqb_spec in E. subst. exists (vs ++ [v]). now apply vo_put.
        * apply keqb_neq in E. exists vs. now apply vo_put_other.
      + destruct (keqb k0 k) eqn:E.
        * apply keqb_spec in E. subst. exists []. apply vo_remove.
        * apply keqb_neq in E. exists vs. now apply vo_remove_other.
      + exists []. apply vo_clear.
  Qed.

  Lemma mm_set_fst : forall (m : @mmap K V) k vs,
    map fst (mm_set keqb m k vs) = if mm_contains_key keqb m k then map fst m else map fst m ++ [k].
  Proof.
    unfold mm_contains_key. induction m as [|[a l] m IH]; simpl; intros; auto.
    destruct (keqb k a) eqn:E; simpl.
    - apply keqb_spec in E. now subst.
    - rewrite IH. destruct (mm_get keqb m k); reflexivity.
  Qed.

  Lemma mm_contains_in : forall (m : @mmap K V) k, mm_contains_key keqb m k = true <-> In k (map fst m).
  Proof.
    unfold mm_contains_key. induction m as [|[a l] m IH]; simpl; intros; [split; [discriminate|tauto]|].
    destruct (keqb k a) eqn:E.
    - apply keqb_spec in E. subst. tauto.
    - rewrite IH. apply keqb_neq in E. split; auto. intros [|]; congruence || auto.
  Qed.

  Lemma mm_step_nodup : forall (m : @mmap K V) o, NoDup (map fst m) -> NoDup (map fst (mm_step keqb m o)).
  Proof.
    intros m o H. destruct o; simpl.
    - unfold mm_put. rewrite mm_set_fst. destruct (mm_contains_key keqb m k) eqn:E; auto.
      apply NoDup_rev in H. rewrite <- (rev_involutive (_ ++ [k])). apply NoDup_rev.
      rewrite rev_app_distr. simpl. constructor; auto. rewrite <- in_rev.
      intros Hin. apply mm_contains_in in Hin. congruence.
    - unfold mm_remove_key. induction m as [|[a l] m IH]; simpl in *; auto.
      inversion H; subst. destruct (keqb k a); simpl; auto. constructor; auto.
      intros Hin. apply H2. apply in_map_iff in Hin. destruct Hin as [x [<- Hx]].
      apply filter_In in Hx. apply in_map. tauto.
    - constructor.
  Qed.

  Lemma mm_run_nodup : forall (h : list (mm_op K V)), NoDup (map fst (mm_run keqb h)).
  Proof.
    unfold mm_run. intros h. assert (NoDup (map fst (@nil (K * list V)))) by constructor.
    revert H. generalize (@nil (K * list V)). induction h; simpl; intros; auto.
    apply IHh. now apply mm_step_nodup.
  Qed.

  Lemma multimap_history : forall (h : list (mm_op K V)) (k : K) vs, values_of h k vs ->
    mm_get keqb (mm_run keqb h) k = (match vs with [] => None | _ => Some vs end) /\
    mm_contains_key keqb (mm_run keqb h) k = negb (Nat.eqb (length vs) 0) /\
    (forall ord, (forall l, Permutation (ord l) l) ->
        NoDup (mm_keys ord (mm_run keqb h)) /\ (In k (mm_keys ord (mm_run keqb h)) <-> vs <> [])) /\
    (mm_empty (mm_run keqb h) = true <-> forall k', values_of h k' []).
  Proof.
    intros h k vs H. pose proof (mm_run_get _ _ _ H) as G.
    assert (C : mm_contains_key keqb (mm_run keqb h) k = negb (Nat.eqb (length vs) 0)).
    { unfold mm_contains_key. fold get. rewrite G. destruct vs; reflexivity. }
    split; [exact G|]. split; [exact C|]. split.
    - intros ord Ho. unfold mm_keys. split.
      + eapply Permutation_NoDup; [symmetry; apply Ho|apply mm_run_nodup].
      + split.
        * intros Hin. apply (Permutation_in _ (Ho _)) in Hin. apply mm_contains_in in Hin.
          rewrite C in Hin. destruct vs; [discriminate|congruence].
        * intros Hv. apply (Permutation_in _ (Permutation_sym (Ho _))). apply mm_contains_in.
          rewrite C. destruct vs; [congruence|reflexivity].
    - unfold mm_empty. rewrite Nat.eqb_eq. split.
      + intros E k'. destruct (mm_run keqb h) eqn:Em; [|discriminate].
        destruct (values_of_total h k') as [vs' H']. pose proof (mm_run_get _ _ _ H') as G'.
        rewrite Em in G'. simpl in G'. destruct vs'; [auto|discriminate].
      + intros A. destruct (mm_run keqb h) as [|[a l] m] eqn:Em; auto.
        pose proof (mm_run_get _ _ _ (A a)) as G'. rewrite Em in G'. unfold get in G'. simpl in G'.
        rewrite keqb_refl in G'. discriminate.
  Qed.

  (** ** RemoveValue *)
  Lemma veqb_refl : forall k, veqb k k = true.
  Proof. intros. now apply veqb_spec. Qed.

  Lemma rv_loop_none : forall v steps i arr res,
    (forall x, In x (skipn i arr) -> x <> v) ->
    rv_loop veqb v i steps arr res = (arr, res).
  Proof.
    induction steps; simpl; intros; auto.
    destruct (nth_error arr i) eqn:E; auto.
    destruct (veqb v0 v) eqn:Ev.
    - apply veqb_spec in Ev. subst. exfalso. apply (H v); auto.
      apply nth_error_split in E. destruct E as [l1 [l2 [-> <-]]].
      rewrite skipn_app, skipn_all, Nat.sub_diag. simpl. now left.
    - apply IHsteps. intros x Hx. apply H.
      rewrite <- (firstn_skipn 1 (skipn i arr)). apply in_or_app. right.
      rewrite skipn_skipn. exact Hx.
  Qed.

  Lemma skipn_len_minus1 : forall (l : list V) x, skipn (length (l ++ [x]) - 1) (l ++ [x]) = [x].
  Proof.
    intros. rewrite app_length. simpl. replace (length l + 1 - 1) with (length l) by lia.
    rewrite skipn_app, skipn_all, Nat.sub_diag. reflexivity.
  Qed.

  Lemma rv_loop_one : forall v l1 l2 pre n,
    ~ In v l1 -> ~ In v l2 ->
    rv_loop veqb v (length pre) (length (l1 ++ v :: l2)) (pre ++ l1 ++ v :: l2) n =
      (pre ++ l1 ++ l2 ++ skipn (length l2) (v :: l2), length (pre ++ l1 ++ l2)).
  Proof.
    induction l1 as [|a l1 IH]; intros l2 pre n H1 H2.
    - cbn [app length rv_loop].
      rewrite nth_error_app2, Nat.sub_diag by lia. simpl nth_error. cbv iota beta.
      rewrite veqb_refl.
      assert (S1 : shift_left_at (length pre) (pre ++ v :: l2) = pre ++ l2 ++ skipn (length l2) (v :: l2)).
      { unfold shift_left_at. rewrite firstn_app, firstn_all, Nat.sub_diag. simpl firstn.
        rewrite app_nil_r. f_equal. f_equal.
        - replace (S (length pre)) with (1 + length pre) by lia.
          rewrite <- skipn_skipn, skipn_app, skipn_all, Nat.sub_diag. reflexivity.
        - rewrite app_length. simpl. replace (length pre + S (length l2) - 1) with (length l2 + length pre) by lia.
          rewrite <- skipn_skipn, skipn_app, skipn_all, Nat.sub_diag. reflexivity. }
      rewrite S1.
      destruct l2 as [|b l _] using rev_ind.
      + simpl. f_equal. rewrite !app_length. simpl. lia.
      + assert (S2 : skipn (length (l ++ [b])) (v :: l ++ [b]) = [b]).
        { rewrite app_length. simpl. replace (length l + 1) with (S (length l)) by lia. simpl.
          rewrite skipn_app, skipn_all, Nat.sub_diag. reflexivity. }
        rewrite S2.
        rewrite rv_loop_none.
        * f_equal. rewrite !app_length. simpl. rewrite !app_length. simpl. lia.
        * intros x Hx. assert (In x ((l ++ [b]) ++ [b])).
          { replace (S (length pre)) with (1 + length pre) in Hx by lia.
            rewrite <- skipn_skipn, skipn_app, skipn_all, Nat.sub_diag in Hx. simpl skipn in Hx.
            destruct ((l ++ [b]) ++ [b]) eqn:E; [destruct Hx|]. right. exact Hx. }
          intros ->. apply H2. rewrite !in_app_iff in *. simpl in *. tauto.
    - cbn [app length rv_loop].
      rewrite nth_error_app2, Nat.sub_diag by lia. simpl nth_error. cbv iota beta.
      destruct (veqb a v) eqn:E.
      + apply veqb_spec in E. subst. exfalso. apply H1. now left.
      + specialize (IH l2 (pre ++ [a]) n).
        assert (L : length (pre ++ [a]) = S (length pre)) by (rewrite app_length; simpl; lia).
        rewrite L in IH. rewrite <- !app_assoc in IH. cbn [app] in IH.
        apply IH; auto. intros Hin. apply H1. now right.
  Qed.

  Lemma remove_value_absent : forall m k v,
    (forall l, mm_get keqb m k = Some l -> l <> []) ->
    (forall l, mm_get keqb m k = Some l -> ~ In v l) ->
    forall k', mm_get keqb (mm_remove_value keqb veqb m k v) k' = mm_get keqb m k'.
  Proof.
    intros m k v Hne Hv k'. unfold mm_remove_value.
    destruct (mm_get keqb m k) as [l|] eqn:E.
    - rewrite rv_loop_none.
      + rewrite firstn_all. fold get. rewrite mm_get_set, keqb_refl.
        specialize (Hne l eq_refl). destruct l; [congruence|].
        fold get. rewrite mm_get_set. destruct (keqb k' k) eqn:Ek; auto.
        apply keqb_spec in Ek. now subst.
      + simpl. intros x Hx ->. apply (Hv l); auto.
    - rewrite E. fold get. rewrite mm_get_remove. destruct (keqb k' k) eqn:Ek; auto.
      apply keqb_spec in Ek. now subst.
  Qed.

  Lemma remove_value_once : forall m k v l1 l2,
    mm_get keqb m k = Some (l1 ++ v :: l2) -> ~ In v l1 -> ~ In v l2 ->
    forall k', mm_get keqb (mm_remove_value keqb veqb m k v) k' =
               if keqb k' k then to_opt (l1 ++ l2) else mm_get keqb m k'.
  Proof.
    intros m k v l1 l2 E H1 H2 k'. unfold mm_remove_value. rewrite E.
    pose proof (rv_loop_one v l1 l2 [] (length (l1 ++ v :: l2)) H1 H2) as R. cbn [app length] in R.
    rewrite R.
    assert (F : firstn (length (l1 ++ l2)) (l1 ++ l2 ++ skipn (length l2) (v :: l2)) = l1 ++ l2).
    { rewrite app_assoc, firstn_app, firstn_all, Nat.sub_diag. simpl. apply app_nil_r. }
    rewrite F. fold get. rewrite mm_get_set, keqb_refl.
    destruct (l1 ++ l2) eqn:El; simpl.
    - rewrite mm_get_remove, mm_get_set. destruct (keqb k' k); reflexivity.
    - rewrite mm_get_set. reflexivity.
  Qed.

  Lemma filter_all : forall (f : V -> bool) l, (forall x, In x l -> f x = true) -> filter f l = l.
  Proof.
    induction l; simpl; intros; auto. rewrite H by auto. f_equal. auto.
  Qed.

  (** RemoveValue on a map built by a history, for a value stored at most once *)
  Lemma remove_value_history : forall (h : list (mm_op K V)) (k : K) vs v,
    values_of h k vs -> (length (filter (fun x => veqb x v) vs) <= 1)%nat ->
    forall k', mm_get keqb (mm_remove_value keqb veqb (mm_run keqb h) k v) k' =
      if keqb k' k then to_opt (filter (fun x => negb (veqb x v)) vs)
      else mm_get keqb (mm_run keqb h) k'.
  Proof.
    intros h k vs v H L k'. pose proof (mm_run_get _ _ _ H) as G. unfold get in G.
    assert (NE : forall x, veqb x v = false -> x <> v).
    { intros x E ->. rewrite veqb_refl in E. discriminate. }
    destruct (filter (fun x => veqb x v) vs) eqn:F.
    - assert (A : ~ In v vs).
      { intros Hin. assert (In v (filter (fun x => veqb x v) vs)) by (apply filter_In; split; [auto|apply veqb_refl]).
        rewrite F in H0. destruct H0. }
      rewrite remove_value_absent.
      + destruct (keqb k' k) eqn:E; auto. apply keqb_spec in E. subst. rewrite G, filter_all; auto.
        intros x Hx. destruct (veqb x v) eqn:Ex; auto. apply veqb_spec in Ex. subst. contradiction.
      + rewrite G. destruct vs; simpl; intros l' E; congruence.
      + rewrite G. destruct vs; simpl; intros l' E; inversion E; subst; auto.
    - assert (Hin : In v vs).
      { assert (In v0 (filter (fun x => veqb x v) vs)) by (rewrite F; now left).
        apply filter_In in H0. destruct H0 as [H0 H1]. apply veqb_spec in H1. now subst. }
      apply in_split in Hin. destruct Hin as [l1 [l2 ->]].
      rewrite filter_app in F. simpl in F. rewrite veqb_refl in F.
      assert (L1 : filter (fun x => veqb x v) l1 = [] /\ filter (fun x => veqb x v) l2 = []).
      { apply (f_equal (@length V)) in F. rewrite app_length in F. simpl in *.
        destruct (filter (fun x => veqb x v) l1), (filter (fun x => veqb x v) l2); simpl in *; auto; lia. }
      assert (N : forall l : list V, filter (fun x => veqb x v) l = [] -> ~ In v l).
      { intros l' E Hin. assert (X : In v (filter (fun x => veqb x v) l')) by (apply filter_In; split; [auto|apply veqb_refl]).
        rewrite E in X. destruct X. }
      destruct L1 as [L1 L2]. apply N in L1. apply N in L2.
      assert (P : forall l : list V, ~ In v l -> filter (fun x => negb (veqb x v)) l = l).
      { intros l' E. apply filter_all. intros x Hx. destruct (veqb x v) eqn:Ex; auto.
        apply veqb_spec in Ex. subst. contradiction. }
      rewrite (remove_value_once _ _ _ l1 l2); auto.
      + rewrite filter_app. simpl. rewrite veqb_refl. simpl. now rewrite !P.
      + rewrite G. destruct l1; reflexivity.
  Qed.
End MM.

(** * Memo *)
Section MemoProofs.
  Context {K S : Type} (keqb : K -> K -> bool).
  Hypothesis keqb_spec : forall a b, keqb a b = true <-> a = b.
  Variable fn : K -> S -> string * S.

  Lemma run_all_snoc : forall ks k s,
    run_all fn (ks ++ [k]) s =
      let '(r, s1) := run_all fn ks s in let '(v, s2) := fn k s1 in (r ++ [(k, v)], s2).
  Proof.
    induction ks; simpl; intros.
    - destruct (fn k s). reflexivity.
    - destruct (fn a s). rewrite IHks. destruct (run_all fn ks s1). destruct (fn k s2). reflexivity.
  Qed.

  Lemma run_all_fst : forall ks s, map fst (fst (run_all fn ks s)) = ks.
  Proof.
    induction ks; simpl; intros; auto. destruct (fn a s). specialize (IHks s1).
    destruct (run_all fn ks s1). simpl in *. now rewrite IHks.
  Qed.

  Lemma memo_run_app : forall ks1 ks2 st,
    memo_run keqb fn (ks1 ++ ks2) st =
      let '(v1, st1) := memo_run keqb fn ks1 st in
      let '(v2, st2) := memo_run keqb fn ks2 st1 in (v1 ++ v2, st2).
  Proof.
    induction ks1; intros; cbn [app memo_run].
    - destruct (memo_run keqb fn ks2 st). reflexivity.
    - destruct (memo_call keqb fn a st). rewrite IHks1.
      destruct (memo_run keqb fn ks1 p). destruct (memo_run keqb fn ks2 p0). reflexivity.
  Qed.

  Lemma cache_find_in : forall c k v, NoDup (map fst c) ->
    (cache_find keqb c k = Some v <-> In (k, v) c).
  Proof.
    induction c as [|[a w] c IH]; simpl; intros k v N; [split; [discriminate|tauto]|].
    inversion N; subst. destruct (keqb k a) eqn:E.
    - apply keqb_spec in E. subst. split.
      + intros H. inversion H. auto.
      + intros [H|H]; [inversion H; auto|]. exfalso. apply H1. apply (in_map fst) in H. exact H.
    - rewrite IH by auto. split; auto. intros [H|H]; auto. inversion H; subst.
      rewrite (proj2 (keqb_spec k k) eq_refl) in E. discriminate.
  Qed.

  Lemma cache_find_none : forall c k, cache_find keqb c k = None <-> ~ In k (map fst c).
  Proof.
    induction c as [|[a w] c IH]; simpl; intros k; [tauto|].
    destruct (keqb k a) eqn:E.
    - apply keqb_spec in E. subst. split; [discriminate|tauto].
    - rewrite IH. split; [|tauto]. intros H [->|H1]; [|tauto].
      rewrite (proj2 (keqb_spec k k) eq_refl) in E. discriminate.
  Qed.

  Lemma first_uses_in : forall (ks us : list K), first_uses ks us -> forall k, In k us <-> In k ks.
  Proof.
    induction 1; intros x; [tauto| |].
    - rewrite !in_app_iff, IHfirst_uses. tauto.
    - rewrite in_app_iff, IHfirst_uses. simpl. intuition. now subst.
  Qed.

  Lemma first_uses_nodup : forall (ks us : list K), first_uses ks us -> NoDup us.
  Proof.
    induction 1; [constructor| |auto].
    apply NoDup_rev in IHfirst_uses. rewrite <- (rev_involutive (us ++ [k])). apply NoDup_rev.
    rewrite rev_app_distr. simpl. constructor; auto. rewrite <- in_rev.
    rewrite (first_uses_in _ _ H). auto.
  Qed.

  Lemma first_uses_total : forall ks : list K, exists us, first_uses ks us.
  Proof.
    induction ks as [|k ks [us IH]] using rev_ind; [eexists; constructor|].
    assert (D : forall a b : K, {a = b} + {a <> b}).
    { intros a b. destruct (keqb a b) eqn:Eq; [left; now apply keqb_spec|right].
      intros ->. rewrite (proj2 (keqb_spec b b) eq_refl) in Eq. discriminate. }
    destruct (in_dec D k ks).
    - exists us. now apply fu_old.
    - exists (us ++ [k]). now apply fu_new.
  Qed.

  (** state after a history: the cache holds the results of running fn on the first uses *)
  Lemma memo_state : forall ks us s0, first_uses ks us ->
    let '(rs, sN) := run_all fn us s0 in
    snd (memo_run keqb fn ks (memo_new s0)) = (rev rs, sN, us).
  Proof.
    intros ks us s0 H. induction H.
    - reflexivity.
    - rewrite run_all_snoc. pose proof (run_all_fst us s0) as F.
      destruct (run_all fn us s0) as [rs s1]. rewrite memo_run_app.
      destruct (memo_run keqb fn ks (memo_new s0)) as [vs st1]. simpl in IHfirst_uses. subst st1.
      cbn [memo_run]. unfold memo_call.
      rewrite (proj2 (cache_find_none (rev rs) k)).
      + destruct (fn k s1). simpl. now rewrite rev_app_distr.
      + rewrite map_rev, <- in_rev. simpl in F. rewrite F, (first_uses_in _ _ H). auto.
    - pose proof (run_all_fst us s0) as F.
      destruct (run_all fn us s0) as [rs s1]. rewrite memo_run_app.
      destruct (memo_run keqb fn ks (memo_new s0)) as [vs st1]. simpl in IHfirst_uses. subst st1.
      cbn [memo_run]. unfold memo_call.
      destruct (cache_find keqb (rev rs) k) eqn:E.
      + reflexivity.
      + exfalso. apply cache_find_none in E. apply E. rewrite map_rev, <- in_rev.
        simpl in F. now rewrite F, (first_uses_in _ _ H).
  Qed.

  Lemma memo_outputs : forall ks us s0, first_uses ks us ->
    let '(rs, _) := run_all fn us s0 in
    let outs := fst (memo_run keqb fn ks (memo_new s0)) in
    length outs = length ks /\
    forall i k v, nth_error ks i = Some k -> nth_error outs i = Some v -> In (k, v) rs.
  Proof.
    intros ks us s0 H. induction H.
    - simpl. split; auto. intros i; destruct i; discriminate.
    - rewrite run_all_snoc. pose proof (memo_state ks us s0 H) as M.
      pose proof (run_all_fst us s0) as F.
      destruct (run_all fn us s0) as [rs s1]. rewrite memo_run_app.
      destruct (memo_run keqb fn ks (memo_new s0)) as [vs st1]. simpl in *. subst st1.
      unfold memo_call.
      rewrite (proj2 (cache_find_none (rev rs) k)).
      + destruct (fn k s1) as [v s2]. simpl. destruct IHfirst_uses as [L IH].
        split; [rewrite !app_length; simpl; lia|].
        intros i k' v' Hk Hv. rewrite in_app_iff. simpl.
        destruct (lt_dec i (length ks)).
        * left. rewrite nth_error_app1 in Hk, Hv by lia. eauto.
        * right. left. rewrite nth_error_app2 in Hk, Hv by lia. rewrite L in Hv.
          destruct (i - length ks)%nat as [|[]]; simpl in *; congruence.
      + rewrite map_rev, <- in_rev, F, (first_uses_in _ _ H). auto.
    - pose proof (memo_state ks us s0 H) as M.
      pose proof (run_all_fst us s0) as F.
      destruct (run_all fn us s0) as [rs s1]. rewrite memo_run_app.
      destruct (memo_run keqb fn ks (memo_new s0)) as [vs st1]. simpl in *. subst st1.
      unfold memo_call.
      destruct (cache_find keqb (rev rs) k) eqn:E.
      + simpl. destruct IHfirst_uses as [L IH]. split; [rewrite !app_length; simpl; lia|].
        assert (In (k, s) rs).
        { apply cache_find_in in E. { now apply in_rev. }
          rewrite map_rev, F. apply NoDup_rev. eapply first_uses_nodup; eauto. }
        intros i k' v' Hk Hv.
        destruct (lt_dec i (length ks)).
        * rewrite nth_error_app1 in Hk, Hv by lia. eauto.
        * rewrite nth_error_app2 in Hk, Hv by lia. rewrite L in Hv.
          destruct (i - length ks)%nat as [|[]]; simpl in *; congruence.
      + exfalso. apply cache_find_none in E. apply E. rewrite map_rev, <- in_rev.
        now rewrite F, (first_uses_in _ _ H).
  Qed.

  Lemma memo_history : forall ks us s0, first_uses ks us ->
    let '(rs, sN) := run_all fn us s0 in
    let '(outs, (_, s, log)) := memo_run keqb fn ks (memo_new s0) in
    log = us /\ s = sN /\ NoDup us /\ length outs = length ks /\
    forall i k v, nth_error ks i = Some k -> nth_error outs i = Some v -> In (k, v) rs.
  Proof.
    intros ks us s0 H. pose proof (memo_state ks us s0 H) as M. pose proof (memo_outputs ks us s0 H) as O.
    destruct (run_all fn us s0) as [rs s1]. destruct (memo_run keqb fn ks (memo_new s0)) as [outs [[c s] log]].
    simpl in *. inversion M; subst. destruct O. repeat split; auto. eapply first_uses_nodup; eauto.
  Qed.
End MemoProofs.

Lemma remove_value_duplicate :
  exists (h : list (mm_op string nat)) (k : string) (v : nat) (vs : list nat),
    values_of h k vs /\
    exists l, mm_get String.eqb (mm_remove_value String.eqb Nat.eqb (mm_run String.eqb h) k v) k = Some l
              /\ In v l.
Proof.
  exists [MPut "k"%string 1; MPut "k"%string 1], "k"%string, 1, [1; 1].
  split.
  - apply (vo_put [MPut "k"%string 1] "k"%string 1 [1]). apply (vo_put [] "k"%string 1 []). constructor.
  - exists [1]. split; [vm_compute; reflexivity|now left].
Qed.
