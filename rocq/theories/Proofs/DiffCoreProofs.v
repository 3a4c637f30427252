(** Lemmas about Model/DiffCore.v *)
From Coq Require Import String Ascii List NArith Bool Lia Sorting.Permutation Sorting.Sorted.
From Verif.Model Require Import GoString Util Octopus DiffCore.
From Verif.Spec Require Import Order Text.
From Verif.Proofs Require Import ListLemmas StringLemmas UtilProofs OctopusProofs.
Import ListNotations.
Local Open Scope string_scope.

(** ** Equality tests *)

Lemma list_eqb_spec : forall {A} (eqb : A -> A -> bool) (H : forall x y, eqb x y = true <-> x = y) l l',
  list_eqb eqb l l' = true <-> l = l'.
Proof.
  intros A eqb H. induction l as [|x l IH]; intros [|y l']; simpl; try (split; congruence).
  rewrite andb_true_iff, H, IH. split; [intros [-> ->]; auto|intros E; injection E; auto].
Qed.

Lemma ref_eqb_spec : forall a b, ref_eqb a b = true <-> a = b.
Proof.
  intros [a1 a2 a3] [b1 b2 b3]. unfold ref_eqb. simpl.
  rewrite !andb_true_iff, !String.eqb_eq. split; [intros [[-> ->] ->]; auto|intros E; injection E; auto].
Qed.

Lemma option_eqb_spec : forall {A} (eqb : A -> A -> bool) (H : forall x y, eqb x y = true <-> x = y) a b,
  option_eqb eqb a b = true <-> a = b.
Proof.
  intros A eqb H [x|] [y|]; simpl; try (split; congruence).
  rewrite H. split; [intros ->; auto|intros E; injection E; auto].
Qed.

Lemma column_eqb_spec : forall a b, column_eqb a b = true <-> a = b.
Proof.
  intros [] []. unfold column_eqb. simpl.
  rewrite !andb_true_iff, !String.eqb_eq, !N.eqb_eq, !Bool.eqb_true_iff.
  rewrite (list_eqb_spec String.eqb String.eqb_eq), (option_eqb_spec ref_eqb ref_eqb_spec).
  split.
  - intros H. decompose [and] H. subst. reflexivity.
  - intros E. injection E. intros. subst. repeat split; reflexivity.
Qed.

Lemma same_columns_spec : forall a b, same_columns a b = true <-> t_cols a = t_cols b.
Proof. intros. apply (list_eqb_spec column_eqb column_eqb_spec). Qed.

(** ** Positions *)

Lemma with_pos_snd : forall {A} (l : list A), map snd (with_pos l) = l.
Proof.
  intros A l. unfold with_pos. generalize 0. induction l; intros n; simpl; auto. now rewrite IHl.
Qed.

Lemma with_pos_fst : forall {A} (l : list A), map fst (with_pos l) = seq 0 (length l).
Proof.
  intros A l. unfold with_pos. generalize 0. induction l; intros n; simpl; auto. now rewrite IHl.
Qed.

Lemma with_pos_nodup : forall {A} (l : list A), NoDup (map fst (with_pos l)).
Proof. intros. rewrite with_pos_fst. apply seq_NoDup. Qed.

Lemma with_pos_nth : forall {A} (l : list A) i x, In (i, x) (with_pos l) <-> nth_error l i = Some x.
Proof.
  intros A l i x. unfold with_pos.
  assert (G : forall l n i, In (i, x) (combine (seq n (length l)) l) <-> n <= i /\ nth_error l (i - n) = Some x).
  { clear. induction l as [|y l IH]; intros n i; simpl.
    - split; [tauto|]. intros [_ H]. destruct (i - n); discriminate.
    - rewrite IH. split.
      + intros [E|[H1 H2]].
        * injection E as -> ->. split; auto. now rewrite PeanoNat.Nat.sub_diag.
        * split; [lia|]. replace (i - n) with (S (i - S n)) by lia. auto.
      + intros [H1 H2]. destruct (PeanoNat.Nat.eq_dec n i) as [->|Hn].
        * left. rewrite PeanoNat.Nat.sub_diag in H2. simpl in H2. congruence.
        * right. split; [lia|]. replace (i - n) with (S (i - S n)) in H2 by lia. auto. }
  rewrite G, PeanoNat.Nat.sub_0_r. split; [tauto|]. intros. split; [lia|auto].
Qed.

Lemma with_pos_in : forall {A} (l : list A) x, In x l <-> exists i, In (i, x) (with_pos l).
Proof.
  intros. rewrite <- (with_pos_snd l) at 1. rewrite in_map_iff. split.
  - intros [[i y] [E H]]. simpl in E. subst. eauto.
  - intros [i H]. exists (i, x). auto.
Qed.

(** ** Renamed items *)

Section Renamed.
  Context {A : Type} (name : A -> string) (lookup : string -> option A) (same : A -> A -> bool).
  Hypothesis lookup_name : forall n r, lookup n = Some r -> name r = n.

  Lemma match_removed_some : forall a names n r, match_removed lookup same a names = Some (n, r) ->
    In n names /\ lookup n = Some r /\ same a r = true.
  Proof.
    induction names as [|m names IH]; simpl; intros n r H; [discriminate|].
    destruct (lookup m) as [r'|] eqn:L.
    - destruct (same a r') eqn:S.
      + injection H as <- <-. auto.
      + destruct (IH _ _ H) as [? [? ?]]. auto.
    - destruct (IH _ _ H) as [? [? ?]]. auto.
  Qed.

  Lemma match_removed_none : forall a names, match_removed lookup same a names = None ->
    forall n r, In n names -> lookup n = Some r -> same a r = false.
  Proof.
    induction names as [|m names IH]; simpl; intros H n r Hn L; [tauto|].
    destruct Hn as [->|Hn].
    - rewrite L in H. destruct (same a r); congruence.
    - destruct (lookup m) as [r'|]; [destruct (same a r'); [discriminate|]|]; eapply IH; eauto.
  Qed.

  Lemma ss_slice_perm : forall s, Permutation (ss_slice s) s.
  Proof. intros. apply sort_strings_perm. Qed.

  Lemma ss_slice_in : forall s k, In k (ss_slice s) <-> In k s.
  Proof. intros. split; apply Permutation_in; [|symmetry]; apply ss_slice_perm. Qed.

  Lemma ss_remove_perm : forall s n, NoDup s -> In n s -> Permutation s (n :: ss_remove s n).
  Proof.
    intros s n D H. apply NoDup_Permutation; auto.
    - constructor; [|now apply ss_remove_nodup]. rewrite ss_remove_in. tauto.
    - intros x. simpl. rewrite ss_remove_in. destruct (string_dec x n); intuition congruence.
  Qed.

  Lemma find_renamed_spec : forall added removed m rest,
    NoDup removed -> find_renamed lookup same added removed = (m, rest) ->
    NoDup rest /\
    Permutation removed (map (fun r => name (snd (snd r))) m ++ rest) /\
    (forall i a r, In (i, (a, r)) m -> In (i, a) added /\ lookup (name r) = Some r /\ same a r = true) /\
    (NoDup (map fst added) -> NoDup (map fst m)).
  Proof.
    induction added as [|[i a] added IH]; intros removed m rest D H; simpl in H.
    - injection H as <- <-. repeat split; auto; intros; simpl in *; try tauto.
    - destruct (match_removed lookup same a (ss_slice removed)) as [[n r]|] eqn:M.
      + apply match_removed_some in M. destruct M as [M1 [M2 M3]]. apply (proj1 (ss_slice_in _ _)) in M1.
        destruct (find_renamed lookup same added (ss_remove removed n)) as [m' rest'] eqn:F.
        injection H as <- <-.
        destruct (IH _ _ _ (ss_remove_nodup _ n D) F) as [I1 [I2 [I3 I4]]].
        split; [auto|]. split.
        * simpl. rewrite (lookup_name _ _ M2).
          rewrite (ss_remove_perm removed n D M1). now constructor.
        * split.
          -- intros j b q [E|Hin].
             ++ injection E as <- <- <-. rewrite (lookup_name _ _ M2). simpl. auto.
             ++ destruct (I3 _ _ _ Hin) as [? ?]. simpl. auto.
          -- intros ND. simpl in *. inversion ND; subst. constructor; auto.
             intros C. apply in_map_iff in C. destruct C as [[j [b q]] [E C]]. simpl in E. subst j.
             apply I3 in C. destruct C as [C _]. apply H1. apply in_map_iff. exists (i, b). auto.
      + destruct (IH _ _ _ D H) as [I1 [I2 [I3 I4]]]. repeat split; auto.
        * right. eapply I3; eauto.
        * eapply I3; eauto.
        * eapply I3; eauto.
        * intros ND. inversion ND; auto.
  Qed.

  (** every item that could be matched with a name still removed has been renamed *)
  Lemma find_renamed_maximal : forall added removed m rest,
    NoDup removed -> find_renamed lookup same added removed = (m, rest) ->
    forall i a, In (i, a) added -> (forall b r, ~ In (i, (b, r)) m) ->
    forall n r, In n rest -> lookup n = Some r -> same a r = false.
  Proof.
    induction added as [|[i a] added IH]; intros removed m rest D H j b Hin Hm n r Hn L; simpl in H.
    - contradiction.
    - destruct (match_removed lookup same a (ss_slice removed)) as [[n' r']|] eqn:M.
      + destruct (find_renamed lookup same added (ss_remove removed n')) as [m' rest'] eqn:F.
        injection H as <- <-.
        destruct Hin as [E|Hin].
        * injection E as <- <-. exfalso. apply (Hm a r'). now left.
        * refine (IH _ _ _ (ss_remove_nodup _ n' D) F _ _ Hin _ _ _ Hn L). intros b' r0 C. apply (Hm b' r0). now right.
      + destruct Hin as [E|Hin].
        * injection E as <- <-. eapply match_removed_none; eauto.
          apply ss_slice_in. destruct (find_renamed_spec _ _ _ _ D H) as [_ [P _]].
          eapply Permutation_in; [symmetry; exact P|]. apply in_or_app. auto.
        * eapply IH; eauto.
  Qed.

  (** renamed ones and the others make up the added ones *)
  Lemma not_renamed_split : forall added removed m rest,
    NoDup removed -> NoDup (map fst added) -> find_renamed lookup same added removed = (m, rest) ->
    Permutation (map snd added) (map (fun r => fst (snd r)) m ++ not_renamed added m).
  Proof.
    intros added removed m rest D ND F.
    destruct (find_renamed_spec _ _ _ _ D F) as [_ [_ [I3 I4]]]. specialize (I4 ND).
    unfold not_renamed.
    set (p := fun ia : nat * A => existsb (fun r : nat * (A * A) => Nat.eqb (fst ia) (fst r)) m).
    assert (P : Permutation (filter p added) (map (fun r => (fst r, fst (snd r))) m)).
    { apply NoDup_Permutation.
      - apply NoDup_filter. eapply NoDup_map_inv; eauto.
      - apply (NoDup_map_inv fst). rewrite map_map. simpl. exact I4.
      - intros [i a]. rewrite filter_In, in_map_iff. unfold p. simpl. split.
        + intros [H E]. apply existsb_exists in E. destruct E as [[j [b r]] [Hj E]].
          simpl in E. apply PeanoNat.Nat.eqb_eq in E. subst j.
          exists (i, (b, r)). split; auto. simpl. f_equal.
          destruct (I3 _ _ _ Hj) as [Hb _].
          assert (Hx : forall l : list (nat * A), NoDup (map fst l) -> In (i, a) l -> In (i, b) l -> b = a).
          { clear. induction l as [|[k c] l IH]; [simpl; tauto|]. simpl; intros ND [E1|H1] [E2|H2]; inversion ND as [|? ? NI ND']; subst.
            - congruence.
            - injection E1 as -> ->. exfalso. apply NI. apply in_map_iff. exists (i, b). auto.
            - injection E2 as -> ->. exfalso. apply NI. apply in_map_iff. exists (i, a). auto.
            - auto. }
          eapply Hx; eauto.
        + intros [[j [b r]] [E Hj]]. simpl in E. injection E as -> ->.
          split; [eapply I3; eauto|]. apply existsb_exists. exists (i, (a, r)). split; auto.
          simpl. apply PeanoNat.Nat.eqb_refl. }
    transitivity (map snd (filter p added) ++ map snd (filter (fun x => negb (p x)) added))%list.
    - rewrite <- map_app. apply Permutation_map. clear. induction added as [|x l IH]; simpl; auto.
      destruct (p x); simpl.
      + now constructor.
      + now apply Permutation_cons_app.
    - apply Permutation_app_tail. rewrite P, map_map. simpl. reflexivity.
  Qed.
End Renamed.

(** ** Identifiers *)

Lemma version_inj : forall i j, version i = version j -> i = j.
Proof.
  assert (NC : forall n, ~ char_in "-" (itoa n)).
  { intros n C. apply (forallb_char_in is_digit) in C; [discriminate|apply itoa_digits]. }
  assert (CM : forall n s, char_in "-" (itoa n ++ "-" ++ s)).
  { intros. apply char_in_app. right. left. reflexivity. }
  intros [a b] [c d]. unfold version. simpl.
  destruct (PeanoNat.Nat.eqb_spec b 0), (PeanoNat.Nat.eqb_spec d 0); subst; intros H.
  - apply itoa_inj in H. f_equal. lia.
  - exfalso. apply (NC (N.of_nat a)). rewrite H. apply CM.
  - exfalso. apply (NC (N.of_nat c)). rewrite <- H. apply CM.
  - assert (E : split_once "-" (itoa (N.of_nat a) ++ String "-" (itoa (N.of_nat b))) =
                (itoa (N.of_nat a), Some (itoa (N.of_nat b)))).
    { apply split_once_some. auto. }
    assert (E' : split_once "-" (itoa (N.of_nat c) ++ String "-" (itoa (N.of_nat d))) =
                (itoa (N.of_nat c), Some (itoa (N.of_nat d)))).
    { apply split_once_some. auto. }
    rewrite H, E' in E. injection E as E1 E2. apply itoa_inj in E1. apply itoa_inj in E2. f_equal; lia.
Qed.

Local Open Scope list_scope.

(** the ids of the change sets built for one major number *)
Definition id_inv (ids : list string) (M : nat) (id : ident) : Prop :=
  id_major id = M /\
  exists ms, ids = map (fun m => version (mkId M m)) ms /\ StronglySorted lt ms /\
             Forall (fun m => m <= id_minor id) ms.

Lemma id_inv_nil : forall id, id_inv [] (id_major id) id.
Proof. intros. split; auto. exists []. repeat split; constructor. Qed.

Lemma sorted_snoc : forall (ms : list nat) n, StronglySorted lt ms -> Forall (fun m => m < n) ms ->
  StronglySorted lt (ms ++ [n]).
Proof.
  induction ms; simpl; intros n S F; [repeat constructor|].
  apply StronglySorted_inv in S. destruct S as [S1 S2]. inversion F; subst. constructor; auto.
  apply Forall_app. auto.
Qed.

Lemma id_inv_bump : forall ids M id, id_inv ids M id ->
  id_inv (ids ++ [version (bump_minor id)]) M (bump_minor id).
Proof.
  intros ids M id [E [ms [-> [S F]]]]. split; [auto|].
  exists (ms ++ [Datatypes.S (id_minor id)]). split.
  - rewrite map_app. simpl. unfold bump_minor. now rewrite E.
  - split.
    + apply sorted_snoc; auto. eapply Forall_impl; [|exact F]. simpl. intros. lia.
    + apply Forall_app. split.
      * eapply Forall_impl; [|exact F]. unfold bump_minor. simpl. intros. lia.
      * constructor; auto.
Qed.

Lemma id_inv_skip : forall ids M id, id_inv ids M id -> id_inv ids M (bump_minor id).
Proof.
  intros ids M id [E [ms [-> [S F]]]]. split; auto. exists ms. repeat split; auto.
  eapply Forall_impl; [|exact F]. unfold bump_minor. simpl. intros. lia.
Qed.

Lemma id_inv_app : forall ids M id ids' id',
  id_inv ids M id ->
  (id_major id' = M /\ id_minor id <= id_minor id' /\
   exists ms, ids' = map (fun m => version (mkId M m)) ms /\ StronglySorted lt ms /\
      Forall (fun m => id_minor id < m <= id_minor id') ms) ->
  id_inv (ids ++ ids') M id'.
Proof.
  intros ids M id ids' id' [E [ms [-> [S F]]]] [E' [L [ms' [-> [S' F']]]]]. split; auto.
  exists (ms ++ ms'). split; [now rewrite map_app|]. split.
  - clear L. induction ms; simpl; auto. apply StronglySorted_inv in S. destruct S as [S1 S2].
    inversion F; subst. constructor; auto. apply Forall_app. split; auto.
    eapply Forall_impl; [|exact F']. simpl. intros. lia.
  - apply Forall_app. split; eapply Forall_impl; try eassumption; simpl; intros; lia.
Qed.

(** the ids of a run over several major numbers *)
Definition ids_run (lo hi : nat) (ids : list string) : Prop :=
  lo <= hi /\ NoDup ids /\
  forall s, In s ids -> exists M m, s = version (mkId M m) /\ lo < M <= hi.

Lemma ids_run_nil : forall lo, ids_run lo lo [].
Proof. intros. split; [auto|]. split; [constructor|]. intros s []. Qed.

Lemma ids_run_app : forall a b c xs ys, ids_run a b xs -> ids_run b c ys -> ids_run a c (xs ++ ys).
Proof.
  intros a b c xs ys [L1 [D1 H1]] [L2 [D2 H2]]. split; [lia|]. split.
  - induction xs as [|x xs IH]; simpl; auto. inversion D1; subst. constructor.
    + rewrite in_app_iff. intros [C|C]; auto.
      destruct (H1 x) as [M [m [E R]]]; [now left|]. destruct (H2 x C) as [M' [m' [E' R']]].
      rewrite E in E'. apply version_inj in E'. injection E' as <- <-. lia.
    + apply IH; auto. intros. apply H1. now right.
  - intros s Hs. apply in_app_iff in Hs. destruct Hs as [Hs|Hs].
    + destruct (H1 s Hs) as [M [m [E R]]]. exists M, m. split; auto. lia.
    + destruct (H2 s Hs) as [M [m [E R]]]. exists M, m. split; auto. lia.
Qed.

Lemma sorted_lt_nodup : forall ms : list nat, StronglySorted lt ms -> NoDup ms.
Proof.
  induction ms; intros S; constructor; apply StronglySorted_inv in S; destruct S as [S1 S2]; auto.
  intros C. rewrite Forall_forall in S2. specialize (S2 _ C). lia.
Qed.

Lemma id_inv_run : forall ids n id, id_inv ids (S n) id -> ids_run n (S n) ids.
Proof.
  intros ids n id [E [ms [-> [S F]]]]. split; [lia|]. split.
  - apply FinFun.Injective_map_NoDup.
    + intros x y H. apply version_inj in H. congruence.
    + now apply sorted_lt_nodup.
  - intros s Hs. apply in_map_iff in Hs. destruct Hs as [m [<- _]]. exists (Datatypes.S n), m. split; auto; lia.
Qed.

(** ** The skeleton *)

Definition in_names (n : string) (ts : list table) : bool := str_in n (map t_name ts).

Section Skeleton.
  Context {CS : Type} (cid : CS -> string).
  Variable diff_table : nat -> ident -> table -> table -> option (list CS * ident).
  Variable drop_cs : ident -> string -> table -> CS.
  Variable rename_cs : ident -> table -> table -> list CS * ident.
  Variable create_cs : ident -> table -> option (list CS * ident).

  Notation scan := (scan_tables diff_table).

  (** pairs of tables of the same name *)
  Definition kept (f : option (table -> bool)) (from : list table) (ts : list (nat * table))
    : list (nat * table * table) :=
    flat_map (fun it => if passes f (snd it)
                        then match tables_by_name from (t_name (snd it)) with
                             | Some old => [(fst it, snd it, old)]
                             | None => []
                             end
                        else []) ts.

  Definition is_added (f : option (table -> bool)) (from : list table) (it : nat * table) : bool :=
    passes f (snd it) && negb (in_names (t_name (snd it)) from).

  Lemma in_names_lookup : forall from n, in_names n from = true <-> exists t, tables_by_name from n = Some t.
  Proof.
    intros. unfold in_names. rewrite str_in_iff. destruct (tables_by_name from n) as [t|] eqn:E.
    - split; [eauto|]. intros _. apply tables_by_name_some in E. destruct E as [E1 E2].
      apply in_map_iff. eauto.
    - apply tables_by_name_none in E. split; [tauto|]. intros [t C]. discriminate.
  Qed.

  Lemma scan_spec : forall f from ts id removed css id' r added,
    scan f from ts id removed = Some (css, id', r, added) ->
    (exists l, css = concat l /\
       Forall2 (fun p cs => exists id0 id1, id_minor id0 = 0 /\
                  diff_table (fst (fst p)) id0 (snd (fst p)) (snd p) = Some (cs, id1))
               (kept f from ts) l) /\
    added = filter (is_added f from) ts /\
    (forall k, In k r <-> In k removed /\ ~ (exists it, In it ts /\ passes f (snd it) = true /\ t_name (snd it) = k)) /\
    (NoDup removed -> NoDup r).
  Proof.
    induction ts as [|[i t] ts IH]; intros id removed css id' r added H; simpl in H.
    - injection H as <- <- <- <-. split; [|split; [|split]]; auto.
      + exists []. split; auto; constructor.
      + intros k. split; [|tauto]. intros Hk. split; auto. intros [it [[] _]].
    - assert (Step : forall removed1 r1, removed1 = ss_remove removed (t_name t) -> passes f t = true ->
        (forall k, In k r1 <-> In k removed1 /\ ~ (exists it, In it ts /\ passes f (snd it) = true /\ t_name (snd it) = k)) ->
        (NoDup removed1 -> NoDup r1) ->
        (forall k, In k r1 <-> In k removed /\
            ~ (exists it, In it ((i, t) :: ts) /\ passes f (snd it) = true /\ t_name (snd it) = k)) /\
        (NoDup removed -> NoDup r1)).
      { intros removed1 r1 -> Ep H1 H2. split.
        - intros k. rewrite H1, ss_remove_in. split.
          + intros [[A B] C]. split; auto. intros [it [[<-|I1] I2]]; simpl in *.
            * destruct I2. congruence.
            * apply C. eauto.
          + intros [A B]. split; [split; auto|].
            * intros ->. apply B. exists (i, t). simpl. auto.
            * intros [it [I1 I2]]. apply B. exists it. simpl. auto.
        - intros. apply H2. now apply ss_remove_nodup. }
      unfold is_added at 1. simpl. destruct (passes f t) eqn:Ep; simpl in *.
      + unfold in_names at 1. destruct (tables_by_name from (t_name t)) as [old|] eqn:Et.
        * destruct (diff_table i (bump_major id) t old) as [[cs0 id1]|] eqn:Ed; [|discriminate].
          destruct (scan f from ts _ _) as [[[[cs1 id2] r1] add1]|] eqn:Es; [|discriminate].
          injection H as <- <- <- <-.
          destruct (IH _ _ _ _ _ _ Es) as [[l [I1 I2]] [I3 [I4 I5]]].
          destruct (Step _ _ eq_refl eq_refl I4 I5) as [S1 S2].
          assert (X : str_in (t_name t) (map t_name from) = true).
          { apply str_in_iff. apply tables_by_name_some in Et. destruct Et as [Et1 Et2].
            apply in_map_iff. eauto. }
          rewrite X. simpl. split; [|split; [exact I3|split; auto]].
          exists (cs0 :: l). split; [simpl; now rewrite I1|]. constructor; auto.
          exists (bump_major id), id1. split; auto.
        * destruct (scan f from ts _ _) as [[[[cs1 id2] r1] add1]|] eqn:Es; [|discriminate].
          injection H as <- <- <- <-.
          destruct (IH _ _ _ _ _ _ Es) as [[l [I1 I2]] [I3 [I4 I5]]].
          destruct (Step _ _ eq_refl eq_refl I4 I5) as [S1 S2].
          apply tables_by_name_none in Et. apply str_in_false in Et. rewrite Et. simpl.
          split; [eauto|]. split; [now rewrite I3|]. auto.
      + destruct (IH _ _ _ _ _ _ H) as [I1 [I3 [I4 I5]]]. split; auto. split; auto. split; auto.
        intros k. rewrite I4. split; intros [A B]; (split; [exact A|]); intros [it [J1 [J2 J3]]]; apply B.
        * destruct J1 as [<-|J1]; [simpl in J2; congruence|]. exists it. auto.
        * exists it. simpl. auto.
  Qed.

  Lemma drop_tables_spec : forall from names id css id', drop_tables drop_cs from names id = (css, id') ->
    (forall n, In n names -> in_names n from = true) ->
    Forall2 (fun n cs => exists id0 old, cs = drop_cs id0 n old /\ tables_by_name from n = Some old) names css.
  Proof.
    induction names as [|n names IH]; intros id css id' H Hn; simpl in H.
    - injection H as <- <-. constructor.
    - destruct (drop_tables drop_cs from names (bump_major id)) as [c1 i1] eqn:E.
      destruct (proj1 (in_names_lookup from n)) as [t Ht]. { apply Hn. now left. }
      rewrite Ht in H. injection H as <- <-. constructor; [eauto|].
      eapply IH; eauto. intros. apply Hn. now right.
  Qed.

  Lemma rename_tables_spec : forall l id css id', rename_tables rename_cs l id = (css, id') ->
    exists ll, css = concat ll /\
      Forall2 (fun p cs => exists id0 id1, id_minor id0 = 0 /\
                 rename_cs id0 (fst (snd p)) (snd (snd p)) = (cs, id1)) l ll.
  Proof.
    induction l as [|[i [nw old]] l IH]; intros id css id' H; simpl in H.
    - injection H as <- <-. exists []. split; auto; constructor.
    - destruct (rename_cs (bump_major id) nw old) as [c1 i1] eqn:E.
      destruct (rename_tables rename_cs l i1) as [c2 i2] eqn:E2. injection H as <- <-.
      destruct (IH _ _ _ E2) as [ll [-> F]]. exists (c1 :: ll). split; auto. constructor; auto.
      exists (bump_major id), i1. auto.
  Qed.

  Lemma create_tables_spec : forall l id css id', create_tables create_cs l id = Some (css, id') ->
    exists ll, css = concat ll /\
      Forall2 (fun t cs => exists id0 id1, id_minor id0 = 0 /\ create_cs id0 t = Some (cs, id1)) l ll.
  Proof.
    induction l as [|t l IH]; intros id css id' H; simpl in H.
    - injection H as <- <-. exists []. split; auto; constructor.
    - destruct (create_cs (bump_major id) t) as [[c1 i1]|] eqn:E; [|discriminate].
      destruct (create_tables create_cs l i1) as [[c2 i2]|] eqn:E2; [|discriminate]. injection H as <- <-.
      destruct (IH _ _ _ E2) as [ll [-> F]]. exists (c1 :: ll). split; auto. constructor; auto.
      exists (bump_major id), i1. auto.
  Qed.

  (** *** Everything a caller needs about the shape of the result *)
  Lemma diff_schemas_shape : forall ord f from to css,
    diff_schemas diff_table drop_cs rename_cs create_cs ord f from to = Some css ->
    (forall l, Permutation (ord l) l) ->
    exists l1 css2 l3 l4 renamed removed,
      let fs := s_tables from in
      let added := filter (is_added f fs) (with_pos (s_tables to)) in
      css = (concat l1 ++ css2 ++ concat l3 ++ concat l4)%list /\
      Forall2 (fun p cs => exists id0 id1, id_minor id0 = 0 /\
                 diff_table (fst (fst p)) id0 (snd (fst p)) (snd p) = Some (cs, id1))
              (kept f fs (with_pos (s_tables to))) l1 /\
      Forall2 (fun n cs => exists id0 old, cs = drop_cs id0 n old /\ tables_by_name fs n = Some old)
              (ss_slice removed) css2 /\
      Forall2 (fun p cs => exists id0 id1, id_minor id0 = 0 /\
                 rename_cs id0 (fst (snd p)) (snd (snd p)) = (cs, id1)) (ord renamed) l3 /\
      Forall2 (fun t cs => exists id0 id1, id_minor id0 = 0 /\ create_cs id0 t = Some (cs, id1))
              (not_renamed added renamed) l4 /\
      NoDup removed /\
      (exists gone, NoDup gone /\
         Permutation gone (map (fun r => t_name (snd (snd r))) renamed ++ removed) /\
         forall n, In n gone <-> In n (map t_name fs) /\
           ~ exists t, In t (s_tables to) /\ passes f t = true /\ t_name t = n) /\
      Permutation (map snd added) (map (fun r => fst (snd r)) renamed ++ not_renamed added renamed) /\
      (forall i nw old, In (i, (nw, old)) renamed ->
         In (i, nw) added /\ tables_by_name fs (t_name old) = Some old /\ t_cols nw = t_cols old) /\
      NoDup (map fst renamed) /\
      (forall i t, In (i, t) added -> (forall b r, ~ In (i, (b, r)) renamed) ->
         forall n old, In n removed -> tables_by_name fs n = Some old -> t_cols t <> t_cols old).
  Proof.
    intros ord f from to css H Hord. unfold diff_schemas in H.
    destruct (scan f (s_tables from) (with_pos (s_tables to)) new_id _) as [[[[css1 id1] removed1] added]|] eqn:Es;
      [|discriminate].
    destruct (find_renamed _ same_columns added removed1) as [renamed removed2] eqn:Ef.
    destruct (drop_tables drop_cs (s_tables from) (ss_slice removed2) id1) as [css2 id2] eqn:Ed.
    destruct (rename_tables rename_cs (ord renamed) id2) as [css3 id3] eqn:Er.
    destruct (create_tables create_cs (not_renamed added renamed) id3) as [[css4 id4]|] eqn:Ec; [|discriminate].
    injection H as <-.
    destruct (scan_spec _ _ _ _ _ _ _ _ _ Es) as [[l1 [-> K1]] [Ka [K2 K3]]].
    specialize (K3 (ss_new_nodup _)).
    assert (LN : forall n r, tables_by_name (s_tables from) n = Some r -> t_name r = n).
    { intros n r Hr. now apply tables_by_name_some in Hr. }
    destruct (find_renamed_spec t_name _ _ LN _ _ _ _ K3 Ef) as [F1 [F2 [F3 F4]]].
    assert (NDa : NoDup (map fst added)).
    { rewrite Ka. assert (G : forall (l : list (nat * table)) p, NoDup (map fst l) -> NoDup (map fst (filter p l))).
      { clear. induction l as [|x l IH]; simpl; intros p D; auto. inversion D; subst.
        destruct (p x); simpl; auto. constructor; auto.
        intros C. apply H1. apply in_map_iff in C. destruct C as [y [E C]]. apply filter_In in C.
        apply in_map_iff. exists y. tauto. }
      apply G. apply with_pos_nodup. }
    destruct (rename_tables_spec _ _ _ _ Er) as [l3 [-> R3]].
    destruct (create_tables_spec _ _ _ _ Ec) as [l4 [-> R4]].
    exists l1, css2, l3, l4, renamed, removed2. cbv zeta. rewrite <- Ka.
    split; [auto|]. split; [auto|]. split.
    { eapply drop_tables_spec; eauto. intros n Hn. apply (proj1 (ss_slice_in _ _)) in Hn. unfold in_names.
      apply str_in_iff.
      assert (In n removed1). { eapply Permutation_in; [symmetry; exact F2|]. apply in_or_app. auto. }
      apply K2 in H. destruct H as [H _]. rewrite ss_new_in in H. exact H. }
    split; [auto|]. split; [auto|]. split; [auto|]. split.
    { exists removed1. split; [auto|]. split; [auto|]. intros n. rewrite K2, ss_new_in.
      split; intros [A B]; (split; [exact A|]); intros C; apply B.
      - destruct C as [t [C1 C2]]. apply with_pos_in in C1. destruct C1 as [i C1]. exists (i, t). auto.
      - destruct C as [[i t] [C1 C2]]. exists t. split; [apply with_pos_in; eauto|exact C2]. }
    split. { exact (not_renamed_split t_name (tables_by_name (s_tables from)) same_columns LN _ _ _ _ K3 NDa Ef). }
    split. { intros i nw old Hi. destruct (F3 _ _ _ Hi) as [G1 [G2 G3]]. repeat split; auto.
             now apply same_columns_spec. }
    split. { auto. }
    intros i t Hi Hr n old Hn L.
    assert (X : same_columns t old = false).
    { eapply (find_renamed_maximal t_name (tables_by_name (s_tables from)) same_columns LN added removed1); eauto. }
    intros C. apply same_columns_spec in C. congruence.
  Qed.

  (** *** Distinct ids *)
  Hypothesis diff_ids : forall i id t old css id',
    id_minor id = 0 -> diff_table i id t old = Some (css, id') -> id_inv (map cid css) (id_major id) id'.
  Hypothesis drop_ids : forall id n old, cid (drop_cs id n old) = version id.
  Hypothesis rename_ids : forall id nw old css id',
    id_minor id = 0 -> rename_cs id nw old = (css, id') -> id_inv (map cid css) (id_major id) id'.
  Hypothesis create_ids : forall id t css id',
    id_minor id = 0 -> create_cs id t = Some (css, id') -> id_inv (map cid css) (id_major id) id'.

  Lemma scan_ids : forall f from ts id removed css id' r added,
    scan f from ts id removed = Some (css, id', r, added) ->
    ids_run (id_major id) (id_major id') (map cid css).
  Proof.
    induction ts as [|[i t] ts IH]; intros id removed css id' r added H; simpl in H.
    - injection H as <- <- <- <-. apply ids_run_nil.
    - destruct (passes f t); simpl in H; [|eauto].
      destruct (tables_by_name from (t_name t)) as [old|].
      + destruct (diff_table i (bump_major id) t old) as [[c0 i1]|] eqn:Ed; [|discriminate].
        destruct (scan f from ts _ _) as [[[[c1 i2] r1] a1]|] eqn:Es; [|discriminate].
        injection H as <- <- <- <-. apply IH in Es.
        assert (I : id_inv (map cid c0) (id_major (bump_major id)) i1) by (eapply diff_ids; [reflexivity|exact Ed]).
        rewrite map_app. destruct c0.
        * simpl. destruct I as [I _]. simpl in Es. rewrite I in Es. exact Es.
        * eapply ids_run_app; [eapply id_inv_run; exact I|].
          destruct I as [I _]. rewrite I in Es. exact Es.
      + destruct (scan f from ts _ _) as [[[[c1 i2] r1] a1]|] eqn:Es; [|discriminate].
        injection H as <- <- <- <-. eauto.
  Qed.

  Lemma drop_ids_run : forall from names id css id', drop_tables drop_cs from names id = (css, id') ->
    ids_run (id_major id) (id_major id') (map cid css).
  Proof.
    induction names as [|n names IH]; intros id css id' H; simpl in H.
    - injection H as <- <-. apply ids_run_nil.
    - destruct (drop_tables drop_cs from names (bump_major id)) as [c1 i1] eqn:E. apply IH in E.
      simpl in E. destruct (tables_by_name from n).
      + injection H as <- <-. simpl. rewrite drop_ids.
        change (ids_run (id_major id) (id_major i1) ([version (bump_major id)] ++ map cid c1)).
        eapply ids_run_app; [|exact E]. split; [lia|]. split; [repeat constructor; simpl; tauto|].
        intros s [<-|[]]. exists (S (id_major id)), 0. split; auto; lia.
      + injection H as <- <-. destruct E as [L [D E]]. split; [lia|]. split; auto.
        intros s Hs. destruct (E s Hs) as [M [m [? ?]]]. exists M, m. split; auto; lia.
  Qed.

  Lemma rename_ids_run : forall l id css id', rename_tables rename_cs l id = (css, id') ->
    ids_run (id_major id) (id_major id') (map cid css).
  Proof.
    induction l as [|[i [nw old]] l IH]; intros id css id' H; simpl in H.
    - injection H as <- <-. apply ids_run_nil.
    - destruct (rename_cs (bump_major id) nw old) as [c1 i1] eqn:E.
      destruct (rename_tables rename_cs l i1) as [c2 i2] eqn:E2. injection H as <- <-.
      apply IH in E2. apply rename_ids in E; auto. rewrite map_app.
      eapply ids_run_app; [eapply id_inv_run; exact E|]. destruct E as [I _]. rewrite I in E2. exact E2.
  Qed.

  Lemma create_ids_run : forall l id css id', create_tables create_cs l id = Some (css, id') ->
    ids_run (id_major id) (id_major id') (map cid css).
  Proof.
    induction l as [|t l IH]; intros id css id' H; simpl in H.
    - injection H as <- <-. apply ids_run_nil.
    - destruct (create_cs (bump_major id) t) as [[c1 i1]|] eqn:E; [|discriminate].
      destruct (create_tables create_cs l i1) as [[c2 i2]|] eqn:E2; [|discriminate]. injection H as <- <-.
      apply IH in E2. apply create_ids in E; auto. rewrite map_app.
      eapply ids_run_app; [eapply id_inv_run; exact E|]. destruct E as [I _]. rewrite I in E2. exact E2.
  Qed.

  Lemma diff_schemas_ids : forall ord f from to css,
    diff_schemas diff_table drop_cs rename_cs create_cs ord f from to = Some css ->
    NoDup (map cid css).
  Proof.
    intros ord f from to css H. unfold diff_schemas in H.
    destruct (scan f (s_tables from) (with_pos (s_tables to)) new_id _) as [[[[css1 id1] removed1] added]|] eqn:Es;
      [|discriminate].
    destruct (find_renamed _ same_columns added removed1) as [renamed removed2] eqn:Ef.
    destruct (drop_tables drop_cs (s_tables from) (ss_slice removed2) id1) as [css2 id2] eqn:Ed.
    destruct (rename_tables rename_cs (ord renamed) id2) as [css3 id3] eqn:Er.
    destruct (create_tables create_cs (not_renamed added renamed) id3) as [[css4 id4]|] eqn:Ec; [|discriminate].
    injection H as <-.
    apply scan_ids in Es. apply drop_ids_run in Ed. apply rename_ids_run in Er. apply create_ids_run in Ec.
    rewrite !map_app.
    destruct (ids_run_app _ _ _ _ _ Es (ids_run_app _ _ _ _ _ Ed (ids_run_app _ _ _ _ _ Er Ec))) as [_ [D _]].
    exact D.
  Qed.

  (** *** No differences *)
  Lemma scan_nothing : forall f from ts id removed,
    (forall i t, In (i, t) ts -> passes f t = true /\
       exists old, tables_by_name from (t_name t) = Some old /\
         forall id, exists id', diff_table i id t old = Some ([], id')) ->
    exists id' r, scan f from ts id removed = Some ([], id', r, []).
  Proof.
    induction ts as [|[i t] ts IH]; intros id removed H; simpl; [eauto|].
    destruct (H i t) as [Hp [old [L D]]]; [now left|]. rewrite Hp, L. simpl.
    destruct (D (bump_major id)) as [id1 ->].
    destruct (IH (revert_major id1) (ss_remove removed (t_name t))) as [id2 [r ->]]; eauto.
    intros. apply H. now right.
  Qed.

  Lemma diff_schemas_nothing : forall ord f from to,
    (forall l, Permutation (ord l) l) ->
    (forall n, In n (map t_name (s_tables from)) -> In n (map t_name (s_tables to))) ->
    (forall i t, In (i, t) (with_pos (s_tables to)) -> passes f t = true /\
       exists old, tables_by_name (s_tables from) (t_name t) = Some old /\
         forall id, exists id', diff_table i id t old = Some ([], id')) ->
    diff_schemas diff_table drop_cs rename_cs create_cs ord f from to = Some [].
  Proof.
    intros ord f from to Hord Hn H. unfold diff_schemas.
    destruct (scan_nothing f (s_tables from) (with_pos (s_tables to)) new_id (ss_new (map t_name (s_tables from))) H)
      as [id' [r Es]].
    rewrite Es. apply scan_spec in Es. destruct Es as [_ [_ [K _]]].
    assert (r = []).
    { destruct r as [|n r]; auto. exfalso. destruct (proj1 (K n)) as [A B]; [now left|]. apply B.
      rewrite ss_new_in in A. apply Hn in A. apply in_map_iff in A. destruct A as [t [A1 A2]].
      apply with_pos_in in A2. destruct A2 as [i A2]. exists (i, t). split; auto.
      split; auto. now apply (H i t). }
    subst r. simpl. assert (O : ord [] = []). { apply Permutation_nil. symmetry. apply Hord. }
    rewrite O. reflexivity.
  Qed.
End Skeleton.

(** ** The columns of one table *)
Section Columns.
  Context {CS : Type} (cid : CS -> string).
  Variable diff_column : ident -> column -> column -> option (list CS * ident).

  Definition kept_cols (old : list column) (cs : list (nat * column)) : list (column * column) :=
    flat_map (fun ic => match column_name_map old (c_name (snd ic)) with
                        | Some o => [(snd ic, o)]
                        | None => []
                        end) cs.

  Definition is_added_col (old : list column) (ic : nat * column) : bool :=
    negb (str_in (c_name (snd ic)) (map c_name old)).

  Lemma scan_columns_spec : forall old cs id removed css id' r added,
    scan_columns diff_column old cs id removed = Some (css, id', r, added) ->
    (exists l, css = concat l /\
       Forall2 (fun p x => exists id0 id1, diff_column id0 (fst p) (snd p) = Some (x, id1))
               (kept_cols old cs) l) /\
    added = filter (is_added_col old) cs /\
    (forall k, In k r <-> In k removed /\ ~ (In k (map c_name old) /\ In k (map (fun ic => c_name (snd ic)) cs))) /\
    (NoDup removed -> NoDup r).
  Proof.
    induction cs as [|[i c] cs IH]; intros id removed css id' r added H; simpl in H.
    - injection H as <- <- <- <-. split; [|split; [|split]]; auto.
      + exists []. split; auto; constructor.
      + intros k. simpl. tauto.
    - unfold is_added_col at 1. simpl. destruct (column_name_map old (c_name c)) as [o|] eqn:Eo.
      + destruct (diff_column id c o) as [[c0 i1]|] eqn:Ed; [|discriminate].
        destruct (scan_columns diff_column old cs i1 _) as [[[[c1 i2] r1] a1]|] eqn:Es; [|discriminate].
        injection H as <- <- <- <-.
        destruct (IH _ _ _ _ _ _ Es) as [[l [I1 I2]] [I3 [I4 I5]]].
        assert (X : In (c_name c) (map c_name old)).
        { apply column_name_map_some in Eo. destruct Eo as [E1 E2]. apply in_map_iff. eauto. }
        assert (X' := proj2 (str_in_iff _ _) X). rewrite X'. simpl. split.
        { exists (c0 :: l). split; [simpl; now rewrite I1|]. constructor; eauto. }
        split; [auto|]. split.
        * intros k. rewrite I4, ss_remove_in. split.
          -- intros [[A B] C]. split; auto. intros [D [E|E]]; auto.
          -- intros [A B]. split; [split; auto|].
             ++ intros ->. apply B. auto.
             ++ intros [D E]. apply B. auto.
        * intros. apply I5. now apply ss_remove_nodup.
      + destruct (scan_columns diff_column old cs id removed) as [[[[c1 i2] r1] a1]|] eqn:Es; [|discriminate].
        injection H as <- <- <- <-.
        destruct (IH _ _ _ _ _ _ Es) as [I1 [I3 [I4 I5]]].
        apply column_name_map_none in Eo. assert (X := proj2 (str_in_false _ _) Eo). rewrite X. simpl.
        split; [auto|]. split; [now rewrite I3|]. split; [|auto].
        intros k. rewrite I4. split; intros [A B]; (split; [exact A|]); intros [C D]; apply B; split; auto.
        destruct D as [<-|D]; tauto.
  Qed.

  Hypothesis column_ids : forall M ids id c o css id',
    id_inv ids M id -> diff_column id c o = Some (css, id') -> id_inv (ids ++ map cid css) M id'.

  Lemma scan_columns_ids : forall old cs M ids id removed css id' r added,
    id_inv ids M id ->
    scan_columns diff_column old cs id removed = Some (css, id', r, added) ->
    id_inv (ids ++ map cid css) M id'.
  Proof.
    induction cs as [|[i c] cs IH]; intros M ids id removed css id' r added I H; simpl in H.
    - injection H as <- <- <- <-. simpl. now rewrite app_nil_r.
    - destruct (column_name_map old (c_name c)) as [o|].
      + destruct (diff_column id c o) as [[c0 i1]|] eqn:Ed; [|discriminate].
        destruct (scan_columns diff_column old cs i1 _) as [[[[c1 i2] r1] a1]|] eqn:Es; [|discriminate].
        injection H as <- <- <- <-. rewrite map_app, app_assoc. eapply IH; eauto.
      + destruct (scan_columns diff_column old cs id removed) as [[[[c1 i2] r1] a1]|] eqn:Es; [|discriminate].
        injection H as <- <- <- <-. eauto.
  Qed.

  Lemma scan_columns_nothing : forall old cs id removed,
    (forall i c, In (i, c) cs -> exists o, column_name_map old (c_name c) = Some o /\
       forall id, diff_column id c o = Some ([], id)) ->
    exists r, scan_columns diff_column old cs id removed = Some ([], id, r, []).
  Proof.
    induction cs as [|[i c] cs IH]; intros id removed H; simpl; [eauto|].
    destruct (H i c) as [o [L D]]; [now left|]. rewrite L, D.
    destruct (IH id (ss_remove removed (c_name c))) as [r ->]; eauto. intros. eapply H. right. eauto.
  Qed.
End Columns.
