(** Which removed item an added one is paired with *)
From Coq Require Import String Ascii List NArith Bool Arith Lia Sorting.Permutation Sorting.Sorted.
From Verif.Model Require Import GoString Util Octopus DiffCore Diff.
From Verif.Spec Require Import Order DiffSpec.
From Verif.Proofs Require Import ListLemmas StringLemmas UtilProofs OctopusProofs DiffCoreProofs DiffProofs DiffFacts.
Import ListNotations.
Local Open Scope list_scope.

Lemma str_ltb_irrefl : forall a, str_ltb a a = false.
Proof. intros a. destruct (str_ltb a a) eqn:E; [|reflexivity]. apply str_ltb_lt in E. now apply bytes_lt_irrefl in E. Qed.
Lemma str_ltb_asym : forall a b, str_ltb a b = true -> str_ltb b a = false.
Proof.
  intros a b H. destruct (str_ltb b a) eqn:E; [|reflexivity]. apply str_ltb_lt in E, H.
  exfalso. exact (bytes_lt_irrefl a (bytes_lt_trans _ _ _ H E)).
Qed.
Lemma str_ltb_trichotomy : forall a b, a <> b -> str_ltb a b = false -> str_ltb b a = true.
Proof.
  intros a b N H. apply str_ltb_lt. destruct (bytes_lt_total a b) as [L|[L|L]]; [contradiction| |exact L].
  apply str_ltb_lt in L. congruence.
Qed.

Section Ranks.
  Context {A : Type} (name : A -> string) (lookup : string -> option A) (same : A -> A -> bool).
  Hypothesis lookup_name : forall n r, lookup n = Some r -> name r = n.
  Hypothesis same_sym : forall x y, same x y = true -> same y x = true.
  Hypothesis same_trans : forall x y z, same x y = true -> same y z = true -> same x z = true.

  (** how many items alike have smaller names *)
  Definition rank (x : A) (l : list A) : nat := length (filter (fun y => same x y && str_ltb (name y) (name x)) l).
  Definition items (ns : list string) : list A := flat_map (fun n => match lookup n with Some r => [r] | None => [] end) ns.
  Definition in_order (l : list A) : Prop := ForallOrdPairs (fun x y => same x y = true -> str_ltb (name x) (name y) = true) l.

  Lemma filter_length_perm : forall (p : A -> bool) l l', Permutation l l' -> length (filter p l) = length (filter p l').
  Proof.
    intros p l l' P. induction P as [|x l l' P IH|x y l|l l' l'' P IH P' IH']; cbn [filter]; [reflexivity| | |congruence].
    - destruct (p x); cbn [length]; congruence.
    - destruct (p x), (p y); reflexivity.
  Qed.
  Lemma rank_perm : forall x l l', Permutation l l' -> rank x l = rank x l'.
  Proof. intros x l l' P. now apply filter_length_perm. Qed.
  Lemma rank_cons : forall x y l, rank x (y :: l) = (if same x y && str_ltb (name y) (name x) then 1 else 0) + rank x l.
  Proof. intros x y l. unfold rank. cbn [filter]. destruct (same x y && str_ltb (name y) (name x)); reflexivity. Qed.
  Lemma rank_zero : forall x l, (forall y, In y l -> same x y = true -> str_ltb (name y) (name x) = false) -> rank x l = 0.
  Proof.
    intros x l H. unfold rank. rewrite filter_none; [reflexivity|]. intros y Y. destruct (same x y) eqn:S; [|reflexivity].
    exact (H y Y S).
  Qed.
  Lemma rank_pos : forall x y l, In y l -> same x y = true -> str_ltb (name y) (name x) = true -> rank x l <> 0.
  Proof.
    intros x y l I S L Z. unfold rank in Z. assert (In y (filter (fun y => same x y && str_ltb (name y) (name x)) l)).
    { apply filter_In. split; [exact I|]. now rewrite S, L. }
    destruct (filter _ l); [contradiction|discriminate].
  Qed.

  Lemma items_in : forall ns r, In r (items ns) <-> In (name r) ns /\ lookup (name r) = Some r.
  Proof.
    intros ns r. unfold items. rewrite in_flat_map. split.
    - intros (n & N & I). destruct (lookup n) as [r'|] eqn:L; [|contradiction]. destruct I as [->|[]].
      rewrite (lookup_name _ _ L). auto.
    - intros [N L]. exists (name r). rewrite L. split; [exact N|now left].
  Qed.
  Lemma items_perm : forall ns ns', Permutation ns ns' -> Permutation (items ns) (items ns').
  Proof. intros ns ns' P. unfold items. now apply Permutation_flat_map. Qed.

  (** the one found is the least *)
  Lemma match_least : forall a ns n r, StronglySorted bytes_lt ns -> match_removed lookup same a ns = Some (n, r) ->
    forall n' r', In n' ns -> lookup n' = Some r' -> same a r' = true -> n' = n \/ str_ltb n n' = true.
  Proof.
    induction ns as [|m ns IH]; intros n r S M n' r' I L E; [contradiction|]. inversion S as [|? ? S' F]; subst. cbn [match_removed] in M.
    assert (Rest : match_removed lookup same a ns = Some (n, r) -> n' <> m -> n' = n \/ str_ltb n n' = true).
    { intros M' N. destruct I as [->|I]; [congruence|]. eapply IH; eassumption. }
    destruct (lookup m) as [rm|] eqn:Lm.
    - destruct (same a rm) eqn:Sm.
      + injection M as <- <-. destruct I as [->|I]; [now left|]. right. apply str_ltb_lt. rewrite Forall_forall in F. exact (F _ I).
      + apply Rest; [exact M|]. intros ->. congruence.
    - apply Rest; [exact M|]. intros ->. congruence.
  Qed.
  Lemma slice_sorted : forall s, NoDup s -> StronglySorted bytes_lt (ss_slice s).
  Proof. intros s D. exact (sort_strings_nodup_strict _ D). Qed.

  Lemma same_class : forall a b x, same a b = true -> same x a = same x b.
  Proof.
    intros a b x S. destruct (same x a) eqn:X, (same x b) eqn:Y; auto.
    - rewrite (same_trans _ _ _ X S) in Y. discriminate.
    - rewrite (same_trans _ _ _ Y (same_sym _ _ S)) in X. discriminate.
  Qed.

  Lemma find_renamed_rank : forall added removed m rest, NoDup removed ->
    NoDup (map name (map snd added)) -> in_order (map snd added) -> find_renamed lookup same added removed = (m, rest) ->
    forall a r, (exists i, In (i, (a, r)) m) <->
      In a (map snd added) /\ In r (items removed) /\ same a r = true /\ rank a (map snd added) = rank r (items removed).
  Proof.
    induction added as [|[i0 a0] added IH]; intros removed m rest D DN O H a r; cbn [find_renamed] in H.
    - injection H as <- <-. cbn [map In]. split; [intros [i []]|tauto].
    - cbn [map snd] in DN, O |- *. inversion DN as [|? ? N0 DN']; subst. inversion O as [|? ? O0 O']; subst. rewrite Forall_forall in O0.
      assert (A0 : rank a0 (a0 :: map snd added) = 0).
      { apply rank_zero. intros y [<-|Y] S; [apply str_ltb_irrefl|]. exact (str_ltb_asym _ _ (O0 y Y S)). }
      assert (NE : forall x, In x (map snd added) -> x <> a0).
      { intros x X ->. apply N0. now apply in_map. }
      destruct (match_removed lookup same a0 (ss_slice removed)) as [[n r0]|] eqn:M.
      + destruct (match_removed_some _ _ _ _ _ _ M) as (M1 & M2 & M3). apply (proj1 (ss_slice_in _ _)) in M1.
        pose proof (match_least _ _ _ _ (slice_sorted _ D) M) as Least.
        pose proof (lookup_name _ _ M2) as Nr0.
        destruct (find_renamed lookup same added (ss_remove removed n)) as [m' rest'] eqn:F. injection H as <- <-.
        specialize (IH _ _ _ (ss_remove_nodup _ n D) DN' O' F).
        assert (P : Permutation (items removed) (r0 :: items (ss_remove removed n))).
        { etransitivity; [apply items_perm, (ss_remove_perm removed n D M1)|]. unfold items. cbn [flat_map]. rewrite M2. reflexivity. }
        assert (Lo : forall x, In x (items removed) -> same a0 x = true -> x = r0 \/ str_ltb (name r0) (name x) = true).
        { intros x X S. apply items_in in X as [X L]. destruct (Least (name x) x) as [E|E]; auto.
          - now apply ss_slice_in.
          - left. rewrite E in L. congruence.
          - right. now rewrite Nr0. }
        assert (R0 : rank r0 (items removed) = 0).
        { apply rank_zero. intros y Y S. destruct (Lo y Y) as [->|E]; [exact (same_trans _ _ _ M3 S)|apply str_ltb_irrefl|].
          now apply str_ltb_asym. }
        assert (I0 : In r0 (items removed)) by (apply items_in; rewrite Nr0; auto).
        assert (Next : forall a r, In a (map snd added) -> same a r = true -> In r (items removed) -> r <> r0 ->
          (rank a (map snd added) = rank r (items (ss_remove removed n)) <-> rank a (a0 :: map snd added) = rank r (items removed))).
        { clear a r. intros a r Ia S Ir Nr. rewrite (rank_perm r _ _ P), !rank_cons.
          destruct (same a0 a) eqn:C.
          - rewrite (same_sym _ _ C), (O0 a Ia C). assert (S0 : same a0 r = true) by exact (same_trans _ _ _ C S).
            assert (S1 : same r r0 = true) by exact (same_trans _ _ _ (same_sym _ _ S0) M3). rewrite S1.
            destruct (Lo r Ir S0) as [E|E]; [contradiction|]. rewrite E. cbn [andb]. lia.
          - assert (same a a0 = false) as ->. { destruct (same a a0) eqn:X; [|reflexivity]. rewrite (same_sym _ _ X) in C. discriminate. }
            assert (same r r0 = false) as ->.
            { destruct (same r r0) eqn:X; [|reflexivity].
              assert (Y : same a0 a = true) by exact (same_trans _ _ _ M3 (same_trans _ _ _ (same_sym _ _ X) (same_sym _ _ S))). congruence. }
            cbn [andb]. lia. }
        split.
        * intros [i [E|I]].
          { injection E as <- <- <-. split; [now left|]. split; [exact I0|]. split; [exact M3|congruence]. }
          destruct (proj1 (IH a r)) as (Ia & Ir & S & K); [eauto|].
          assert (Ir' : In r (items removed)) by (eapply Permutation_in; [symmetry; exact P|now right]).
          assert (Nr : r <> r0). { intros ->. apply items_in in Ir as [Ir _]. rewrite Nr0 in Ir. apply ss_remove_in in Ir. tauto. }
          split; [now right|]. split; [exact Ir'|]. split; [exact S|]. now apply (Next a r).
        * intros ([<-|Ia] & Ir & S & K).
          { exists i0. left. destruct (Lo r Ir S) as [->|E]; [reflexivity|]. exfalso.
            apply (rank_pos r r0 (items removed) I0); [|exact E|congruence]. exact (same_trans _ _ _ (same_sym _ _ S) M3). }
          assert (Nr : r <> r0).
          { intros ->. rewrite R0 in K. assert (C : same a0 a = true) by exact (same_trans _ _ _ M3 (same_sym _ _ S)).
            exact (rank_pos a a0 (a0 :: map snd added) (or_introl eq_refl) (same_sym _ _ C) (O0 a Ia C) K). }
          destruct (proj2 (IH a r)) as [i I]; [|exists i; now right].
          split; [exact Ia|]. split; [|split; [exact S|now apply (Next a r)]].
          eapply Permutation_in in Ir; [|exact P]. destruct Ir as [E|Ir]; [congruence|exact Ir].
      + assert (None' : forall r, In r (items removed) -> same a0 r = false).
        { intros x X. apply items_in in X as [X L]. eapply match_removed_none; [exact M| |exact L]. now apply ss_slice_in. }
        rewrite (IH _ _ _ D DN' O' H). split.
        * intros (Ia & Ir & S & K). split; [now right|]. split; [exact Ir|]. split; [exact S|]. rewrite rank_cons.
          assert (same a a0 = false) as ->; [|exact K]. destruct (same a a0) eqn:X; [|reflexivity].
          rewrite <- (None' r Ir). symmetry. exact (same_trans _ _ _ (same_sym _ _ X) S).
        * intros ([<-|Ia] & Ir & S & K); [rewrite (None' r Ir) in S; discriminate|]. split; [exact Ia|]. split; [exact Ir|].
          split; [exact S|]. rewrite rank_cons in K.
          assert (X : same a a0 = false); [|rewrite X in K; exact K]. destruct (same a a0) eqn:X; [|reflexivity].
          rewrite <- (None' r Ir). symmetry. exact (same_trans _ _ _ (same_sym _ _ X) S).
  Qed.
End Ranks.
