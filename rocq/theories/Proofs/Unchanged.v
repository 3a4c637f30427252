(** Tables without changes do not matter for the two comparisons *)
From Coq Require Import String Ascii List Arith NArith Bool Lia Sorting.Permutation.
From Verif.Model Require Import GoString Util Octopus DiffCore Diff Liquibase.
From Verif.Spec Require Import DiffSpec UnchangedSpec.
From Verif.Proofs Require Import ListLemmas StringLemmas UtilProofs OctopusProofs DiffCoreProofs DiffProofs DiffFacts LiquibaseProofs.
Import ListNotations.
Local Open Scope string_scope.

(** ** Other positions *)

Definition pmap {A} (h : nat -> nat) (p : nat * A) : nat * A := (h (fst p), snd p).

Lemma ss_new_app : forall (a b : list string) acc, fold_left ss_add (a ++ b) acc = fold_left ss_add b (fold_left ss_add a acc).
Proof. intros. apply fold_left_app. Qed.

Definition but (n : string) (l : list string) : list string := filter (fun x => negb (String.eqb x n)) l.

Lemma but_id : forall n l, ~ In n l -> but n l = l.
Proof.
  intros n l. induction l as [|x l IH]; simpl; auto. intros H. destruct (String.eqb_spec x n); simpl.
  - subst. tauto.
  - rewrite IH; tauto.
Qed.

Lemma but_app : forall n a b, but n (a ++ b)%list = (but n a ++ but n b)%list.
Proof. intros. apply filter_app. Qed.

Lemma but_in : forall n l x, In x (but n l) <-> In x l /\ x <> n.
Proof.
  intros. unfold but. rewrite filter_In, negb_true_iff, String.eqb_neq. tauto.
Qed.

Lemma str_in_but : forall n l x, x <> n -> str_in x (but n l) = str_in x l.
Proof.
  intros n l x H. destruct (str_in x l) eqn:E.
  - apply str_in_iff. apply but_in. split; auto. now apply str_in_iff.
  - apply not_true_iff_false. intros C. apply str_in_iff in C. apply but_in in C. destruct C as [C _].
    apply str_in_iff in C. congruence.
Qed.

Lemma but_add : forall n s x, but n (ss_add s x) = if String.eqb x n then but n s else ss_add (but n s) x.
Proof.
  intros n s x. unfold ss_add, ss_contains. destruct (String.eqb_spec x n) as [->|N].
  - destruct (str_in n s); auto. rewrite but_app. simpl. rewrite String.eqb_refl. simpl. apply app_nil_r.
  - rewrite str_in_but by auto. destruct (str_in x s); auto. rewrite but_app. simpl.
    destruct (String.eqb_spec x n); [congruence|]. reflexivity.
Qed.

Lemma but_fold : forall n l s, but n (fold_left ss_add l s) = fold_left ss_add (but n l) (but n s).
Proof.
  intros n. induction l as [|x l IH]; intros s; simpl; auto. rewrite IH, but_add.
  destruct (String.eqb x n); reflexivity.
Qed.

Lemma but_new : forall n l, but n (ss_new l) = ss_new (but n l).
Proof. intros. unfold ss_new. now rewrite but_fold. Qed.

Lemma but_but : forall n m l, but n (but m l) = but m (but n l).
Proof.
  intros n m l. induction l as [|x l IH]; simpl; auto.
  destruct (String.eqb x m) eqn:E, (String.eqb x n) eqn:E'; simpl; rewrite ?E, ?E'; simpl; rewrite IH; auto.
Qed.

Lemma but_twice : forall n l, but n (but n l) = but n l.
Proof. intros. apply but_id. rewrite but_in. tauto. Qed.

(** ** Lookup in the schema with one table more *)

Lemma lookup_other : forall l1 t l2 n, n <> t_name t -> tables_by_name (l1 ++ t :: l2)%list n = tables_by_name (l1 ++ l2)%list n.
Proof.
  induction l1 as [|x l1 IH]; intros t l2 n H; simpl.
  - destruct (tables_by_name l2 n) eqn:E; auto. destruct (String.eqb_spec (t_name t) n); [congruence|]. auto.
  - now rewrite IH.
Qed.

Lemma lookup_one : forall l1 t l2, ~ In (t_name t) (map t_name l2) -> tables_by_name (l1 ++ t :: l2)%list (t_name t) = Some t.
Proof.
  induction l1 as [|x l1 IH]; intros t l2 H; simpl.
  - rewrite (proj2 (tables_by_name_none l2 (t_name t)) H). now rewrite String.eqb_refl.
  - now rewrite IH.
Qed.

Section Skeleton.
  Context {CS : Type}.
  Variable dt : nat -> ident -> table -> table -> option (list CS * ident).
  Variable drop : ident -> string -> table -> CS.
  Variable ren : ident -> table -> table -> list CS * ident.
  Variable create : ident -> table -> option (list CS * ident).

  (** results that agree up to positions, the minor number and the name [n] among the removed ones *)
  Definition agrees (h : nat -> nat) (n : string) (a b : option (list CS * ident * sset * list (nat * table))) : Prop :=
    match a, b with
    | None, None => True
    | Some (css, id, r, added), Some (css', id', r', added') =>
        css = css' /\ id_major id = id_major id' /\ but n r = r' /\ added = map (pmap h) added'
    | _, _ => False
    end.

  Lemma bump_same : forall id id', id_major id = id_major id' -> bump_major id = bump_major id'.
  Proof. intros id id' E. unfold bump_major. now rewrite E. Qed.

  Lemma scan_positions : forall h n f from from' its id id' r r',
    (forall m, m <> n -> tables_by_name from m = tables_by_name from' m) ->
    (forall p, In p its -> t_name (snd p) <> n) ->
    id_major id = id_major id' -> but n r = r' ->
    agrees h n (scan_tables dt f from (map (pmap h) its) id r) (scan_tables (fun i => dt (h i)) f from' its id' r').
  Proof.
    intros h n f from from' its. induction its as [|[i t] its IH]; intros id id' r r' L NN E R.
    - simpl. auto.
    - assert (NN' : forall p, In p its -> t_name (snd p) <> n) by (intros; apply NN; now right).
      assert (Nt : t_name t <> n) by (apply (NN (i, t)); now left).
      simpl. destruct (negb (passes f t)); [now apply IH|].
      rewrite (L _ Nt).
      assert (R' : but n (ss_remove r (t_name t)) = ss_remove r' (t_name t)).
      { subst r'. unfold ss_remove. apply (but_but n (t_name t) r). }
      destruct (tables_by_name from' (t_name t)) as [old|].
      + rewrite (bump_same _ _ E). destruct (dt (h i) (bump_major id') t old) as [[css id1]|]; [|exact I].
        set (id2 := match css with [] => revert_major id1 | _ => id1 end).
        specialize (IH id2 id2 _ _ L NN' eq_refl R').
        destruct (scan_tables dt f from (map (pmap h) its) id2 (ss_remove r (t_name t))) as [[[[c1 i1] r1] a1]|],
          (scan_tables (fun i0 => dt (h i0)) f from' its id2 (ss_remove r' (t_name t))) as [[[[c2 i2] r2] a2]|];
          simpl in IH |- *; try tauto.
        destruct IH as [-> [H1 [H2 H3]]]. auto.
      + specialize (IH id id' _ _ L NN' E R').
        destruct (scan_tables dt f from (map (pmap h) its) id (ss_remove r (t_name t))) as [[[[c1 i1] r1] a1]|],
          (scan_tables (fun i0 => dt (h i0)) f from' its id' (ss_remove r' (t_name t))) as [[[[c2 i2] r2] a2]|];
          simpl in IH |- *; try tauto.
        destruct IH as [-> [H1 [H2 H3]]]. repeat split; auto. simpl. now rewrite H3.
  Qed.

  (** one run after another *)
  Lemma scan_app : forall (d : nat -> ident -> table -> table -> option (list CS * ident)) f from a b id r,
    scan_tables d f from (a ++ b)%list id r =
    match scan_tables d f from a id r with
    | None => None
    | Some (css, id1, r1, added) =>
        match scan_tables d f from b id1 r1 with
        | None => None
        | Some (css', id2, r2, added') => Some ((css ++ css')%list, id2, r2, (added ++ added')%list)
        end
    end.
  Proof.
    intros d f from a b. induction a as [|[i t] a IH]; intros id r.
    - simpl. destruct (scan_tables d f from b id r) as [[[[c1 i1] r1] a1]|]; reflexivity.
    - simpl. destruct (negb (passes f t)); [apply IH|].
      destruct (tables_by_name from (t_name t)) as [old|].
      + destruct (d i (bump_major id) t old) as [[css id1]|]; [|reflexivity].
        set (id2 := match css with [] => revert_major id1 | _ => id1 end). rewrite IH.
        destruct (scan_tables d f from a id2 (ss_remove r (t_name t))) as [[[[c1 i1] r1] a1]|]; [|reflexivity].
        destruct (scan_tables d f from b i1 r1) as [[[[c2 i2] r2] a2]|]; [|reflexivity].
        now rewrite app_assoc.
      + rewrite IH. destruct (scan_tables d f from a id (ss_remove r (t_name t))) as [[[[c1 i1] r1] a1]|]; [|reflexivity].
        destruct (scan_tables d f from b i1 r1) as [[[[c2 i2] r2] a2]|]; reflexivity.
  Qed.

  Lemma find_renamed_positions : forall (lookup lookup' : string -> option table) same h added r,
    (forall m, In m r -> lookup m = lookup' m) ->
    find_renamed lookup same (map (pmap h) added) r =
    (map (pmap h) (fst (find_renamed lookup' same added r)), snd (find_renamed lookup' same added r)).
  Proof.
    intros lookup lookup' same h. induction added as [|[i a] added IH]; intros r L; simpl; auto.
    assert (M : match_removed lookup same a (ss_slice r) = match_removed lookup' same a (ss_slice r)).
    { assert (G : forall ns, (forall m, In m ns -> In m r) ->
        match_removed lookup same a ns = match_removed lookup' same a ns).
      { induction ns as [|m ns IHn]; simpl; intros S; auto.
        rewrite L by (apply S; now left). rewrite IHn by (intros; apply S; now right). reflexivity. }
      apply G. intros m Hm. exact (proj1 (ss_slice_in _ _) Hm). }
    rewrite M. destruct (match_removed lookup' same a (ss_slice r)) as [[m old]|].
    - rewrite IH. 2:{ intros k Hk. apply L. unfold ss_remove in Hk. apply filter_In in Hk. tauto. }
      destruct (find_renamed lookup' same added (ss_remove r m)). reflexivity.
    - apply IH; auto.
  Qed.

  Lemma not_renamed_positions : forall {A} h (added : list (nat * A)) (renamed : list (nat * (A * A))),
    (forall i j, h i = h j -> i = j) ->
    not_renamed (map (pmap h) added) (map (pmap h) renamed) = not_renamed added renamed.
  Proof.
    intros A h added renamed J. unfold not_renamed. induction added as [|[i a] added IH]; simpl; auto.
    assert (E : existsb (fun r : nat * (A * A) => Nat.eqb (h i) (fst r)) (map (pmap h) renamed) =
                existsb (fun r => Nat.eqb i (fst r)) renamed).
    { clear -J. induction renamed as [|[j p] l IH]; simpl; auto. rewrite IH. f_equal.
      destruct (Nat.eqb_spec i j) as [->|N].
      - apply Nat.eqb_refl.
      - apply Nat.eqb_neq. intros C. apply N. now apply J. }
    rewrite E. destruct (existsb (fun r => Nat.eqb i (fst r)) renamed); simpl; rewrite <- IH; reflexivity.
  Qed.

  Lemma drop_same : forall from from' ns id id', id_major id = id_major id' ->
    (forall m, In m ns -> tables_by_name from m = tables_by_name from' m) ->
    fst (drop_tables drop from ns id) = fst (drop_tables drop from' ns id') /\
    id_major (snd (drop_tables drop from ns id)) = id_major (snd (drop_tables drop from' ns id')).
  Proof.
    intros from from'. induction ns as [|m ns IH]; intros id id' E L; simpl; auto.
    rewrite (bump_same _ _ E), (L m) by now left.
    destruct (IH (bump_major id') (bump_major id') eq_refl (fun k H => L k (or_intror H))) as [A B].
    destruct (drop_tables drop from ns (bump_major id')) as [c1 i1], (drop_tables drop from' ns (bump_major id')) as [c2 i2].
    simpl in A, B. subst c2. destruct (tables_by_name from' m); simpl; auto.
  Qed.

  Lemma rename_same : forall l l' id id', id_major id = id_major id' -> map snd l = map snd l' ->
    fst (rename_tables ren l id) = fst (rename_tables ren l' id') /\
    id_major (snd (rename_tables ren l id)) = id_major (snd (rename_tables ren l' id')).
  Proof.
    induction l as [|[i [nw old]] l IH]; intros [|[j [nw' old']] l'] id id' E M; simpl in M; try discriminate; simpl; auto.
    injection M as -> -> M. rewrite (bump_same _ _ E).
    destruct (ren (bump_major id') nw' old') as [css id1].
    destruct (IH l' id1 id1 eq_refl M) as [A B].
    destruct (rename_tables ren l id1) as [c1 i1], (rename_tables ren l' id1) as [c2 i2]. simpl in *. subst. auto.
  Qed.

  Lemma create_same : forall l id id', id_major id = id_major id' ->
    option_map fst (create_tables create l id) = option_map fst (create_tables create l id').
  Proof.
    intros [|t l] id id' E; simpl; auto. now rewrite (bump_same _ _ E).
  Qed.

  (** ** The comparison as a whole *)

  Definition skip (k i : nat) : nat := if Nat.ltb i k then i else S i.
  Definition unskip (k i : nat) : nat := if Nat.ltb i k then i else pred i.

  Lemma unskip_skip : forall k i, unskip k (skip k i) = i.
  Proof.
    intros k i. unfold skip, unskip. destruct (Nat.ltb_spec i k) as [L|L].
    - destruct (Nat.ltb_spec i k); [auto|lia].
    - destruct (Nat.ltb_spec (S i) k); [lia|]. reflexivity.
  Qed.

  Lemma skip_inj : forall k i j, skip k i = skip k j -> i = j.
  Proof. intros k i j E. rewrite <- (unskip_skip k i), E. apply unskip_skip. Qed.

  Lemma pos_skip : forall (l1 l2 : list table) t,
    with_pos (l1 ++ t :: l2)%list =
    (map (pmap (skip (length l1))) (with_pos l1) ++ (length l1, t) ::
     map (pmap (skip (length l1))) (combine (seq (length l1) (length l2)) l2))%list.
  Proof.
    intros l1 l2 t. unfold with_pos.
    assert (C : forall (a b : list table) n, combine (seq n (length (a ++ b))) (a ++ b)%list =
      (combine (seq n (length a)) a ++ combine (seq (n + length a) (length b)) b)%list).
    { induction a as [|x a IH]; intros b n; simpl.
      - now rewrite Nat.add_0_r.
      - rewrite IH. now rewrite Nat.add_succ_r. }
    rewrite C. simpl. f_equal; [|f_equal].
    - assert (G : forall k (l : list table) n, n + length l <= k ->
        map (pmap (skip k)) (combine (seq n (length l)) l) = combine (seq n (length l)) l).
      { intros k. induction l as [|x l IH]; intros n H; simpl; auto. simpl in H. rewrite IH by lia.
        unfold pmap, skip at 1. simpl. destruct (Nat.ltb_spec n k); [auto|lia]. }
      now rewrite G.
    - assert (G : forall k (l : list table) n, k <= n ->
        map (pmap (skip k)) (combine (seq n (length l)) l) = combine (seq (S n) (length l)) l).
      { intros k. induction l as [|x l IH]; intros n H; simpl; auto. rewrite IH by lia.
        unfold pmap, skip at 1. simpl. destruct (Nat.ltb_spec n k); [lia|auto]. }
      now rewrite G.
  Qed.

  Lemma pos_app : forall (l1 l2 : list table),
    with_pos (l1 ++ l2)%list = (with_pos l1 ++ combine (seq (length l1) (length l2)) l2)%list.
  Proof.
    intros l1 l2. unfold with_pos.
    assert (C : forall (a b : list table) n, combine (seq n (length (a ++ b))) (a ++ b)%list =
      (combine (seq n (length a)) a ++ combine (seq (n + length a) (length b)) b)%list).
    { induction a as [|x a IH]; intros b n; simpl.
      - now rewrite Nat.add_0_r.
      - rewrite IH. now rewrite Nat.add_succ_r. }
    apply C.
  Qed.

  Definition order_without (k : nat) (ord : list (nat * (table * table)) -> list (nat * (table * table)))
    (l : list (nat * (table * table))) : list (nat * (table * table)) :=
    map (pmap (unskip k)) (ord (map (pmap (skip k)) l)).

  Lemma order_without_ok : forall k ord, iteration_order ord -> iteration_order (order_without k ord).
  Proof.
    intros k ord H l. unfold order_without. etransitivity; [apply Permutation_map, H|].
    rewrite map_map. rewrite (map_ext _ (fun p => p)); [now rewrite map_id|].
    intros [i p]. unfold pmap. simpl. now rewrite unskip_skip.
  Qed.

  (** an order for the schemas with one table more *)
  Definition order_with (k : nat) (ord : list (nat * (table * table)) -> list (nat * (table * table)))
    (l : list (nat * (table * table))) : list (nat * (table * table)) :=
    if forallb (fun p => negb (Nat.eqb (fst p) k)) l
    then map (pmap (skip k)) (ord (map (pmap (unskip k)) l)) else l.

  Lemma skip_unskip : forall k i, i <> k -> skip k (unskip k i) = i.
  Proof.
    intros k i H. unfold skip, unskip. destruct (Nat.ltb_spec i k) as [L|L].
    - destruct (Nat.ltb_spec i k); [auto|lia].
    - destruct (Nat.ltb_spec (pred i) k); lia.
  Qed.

  Lemma order_with_ok : forall k ord, iteration_order ord -> iteration_order (order_with k ord).
  Proof.
    intros k ord H l. unfold order_with. destruct (forallb _ l) eqn:E; [|reflexivity].
    etransitivity; [apply Permutation_map, H|]. rewrite map_map.
    rewrite forallb_forall in E. rewrite (map_ext_in _ (fun p => p)); [now rewrite map_id|].
    intros [i p] Hi. unfold pmap. simpl. rewrite skip_unskip; auto.
    apply E in Hi. simpl in Hi. apply negb_true_iff, Nat.eqb_neq in Hi. exact Hi.
  Qed.

  Lemma order_with_without : forall k ord l, order_without k (order_with k ord) l = ord l.
  Proof.
    intros k ord l. unfold order_without, order_with.
    assert (E : forallb (fun p : nat * (table * table) => negb (Nat.eqb (fst p) k)) (map (pmap (skip k)) l) = true).
    { apply forallb_forall. intros x Hx. apply in_map_iff in Hx. destruct Hx as [[i p] [<- _]]. simpl.
      apply negb_true_iff, Nat.eqb_neq. unfold skip. destruct (Nat.ltb_spec i k); lia. }
    assert (I : forall m : list (nat * (table * table)), map (pmap (unskip k)) (map (pmap (skip k)) m) = m).
    { intros m. rewrite map_map. rewrite (map_ext _ (fun p => p)); [apply map_id|].
      intros [i p]. unfold pmap. simpl. now rewrite unskip_skip. }
    rewrite E, I, I. reflexivity.
  Qed.

  Lemma diff_order : forall (d : nat -> ident -> table -> table -> option (list CS * ident)) ord ord' f from to, (forall l, ord l = ord' l) ->
    diff_schemas d drop ren create ord f from to = diff_schemas d drop ren create ord' f from to.
  Proof.
    intros d ord ord' f from to E. unfold diff_schemas.
    destruct (scan_tables d f (s_tables from) _ _ _) as [[[[c i] r] a]|]; auto.
    destruct (find_renamed _ _ a r) as [rn rm]. destruct (drop_tables drop _ _ _) as [c2 i2]. now rewrite E.
  Qed.

  Lemma diff_each : forall (d d' : nat -> ident -> table -> table -> option (list CS * ident)) ord f from to,
    (forall i, d i = d' i) ->
    diff_schemas d drop ren create ord f from to = diff_schemas d' drop ren create ord f from to.
  Proof.
    intros d d' ord f from to E.
    assert (G : forall its id r, scan_tables d f (s_tables from) its id r = scan_tables d' f (s_tables from) its id r).
    { induction its as [|[i t] its IH]; intros id r; simpl; auto. rewrite IH, E.
      destruct (negb (passes f t)); auto. destruct (tables_by_name (s_tables from) (t_name t)); auto.
      - destruct (d' i (bump_major id) t t0) as [[c j]|]; auto. now rewrite IH.
      - now rewrite IH. }
    unfold diff_schemas. now rewrite G.
  Qed.

  Lemma added_names : forall d f from its id r css id' r' added,
    scan_tables (CS := CS) d f from its id r = Some (css, id', r', added) -> forall m, In m r' -> In m r.
  Proof.
    intros d f from. induction its as [|[i t] its IH]; intros id r css id' r' added H m Hm; simpl in H.
    - injection H as _ _ <- _. auto.
    - destruct (negb (passes f t)); [eapply IH; eauto|].
      destruct (tables_by_name from (t_name t)) as [old|].
      + destruct (d i (bump_major id) t old) as [[c1 id1]|]; [|discriminate].
        destruct (scan_tables d f from its _ (ss_remove r (t_name t))) as [[[[c2 i2] r2] a2]|] eqn:E; [|discriminate].
        injection H as _ _ <- _. eapply IH in E; [|exact Hm]. unfold ss_remove in E. apply filter_In in E. tauto.
      + destruct (scan_tables d f from its _ (ss_remove r (t_name t))) as [[[[c2 i2] r2] a2]|] eqn:E; [|discriminate].
        injection H as _ _ <- _. eapply IH in E; [|exact Hm]. unfold ss_remove in E. apply filter_In in E. tauto.
  Qed.

  Lemma scan_removes : forall d f from its id r css id' r' added,
    scan_tables (CS := CS) d f from its id r = Some (css, id', r', added) ->
    forall i t, In (i, t) its -> passes f t = true -> ~ In (t_name t) r'.
  Proof.
    intros d f from. induction its as [|[j u] its IH]; intros id r css id' r' added H i t Ht P; simpl in H; [destruct Ht|].
    destruct Ht as [Ht|Ht].
    - injection Ht as -> ->. rewrite P in H. simpl in H. intros C.
      assert (A : In (t_name t) (ss_remove r (t_name t))).
      { destruct (tables_by_name from (t_name t)) as [old|].
        - destruct (d i (bump_major id) t old) as [[c1 id1]|]; [|discriminate].
          destruct (scan_tables d f from its _ (ss_remove r (t_name t))) as [[[[c2 i2] r2] a2]|] eqn:E; [|discriminate].
          injection H as _ _ <- _. eapply added_names; eauto.
        - destruct (scan_tables d f from its _ (ss_remove r (t_name t))) as [[[[c2 i2] r2] a2]|] eqn:E; [|discriminate].
          injection H as _ _ <- _. eapply added_names; eauto. }
      unfold ss_remove in A. apply filter_In in A. rewrite String.eqb_refl in A. destruct A as [_ A]. discriminate.
    - destruct (negb (passes f u)); [eapply IH; eauto|].
      destruct (tables_by_name from (t_name u)) as [old|].
      + destruct (d j (bump_major id) u old) as [[c1 id1]|]; [|discriminate].
        destruct (scan_tables d f from its _ (ss_remove r (t_name u))) as [[[[c2 i2] r2] a2]|] eqn:E; [|discriminate].
        injection H as _ _ <- _. eapply IH; eauto.
      + destruct (scan_tables d f from its _ (ss_remove r (t_name u))) as [[[[c2 i2] r2] a2]|] eqn:E; [|discriminate].
        injection H as _ _ <- _. eapply IH; eauto.
  Qed.

  Lemma unchanged_skips : forall ord f sf f1 old f2 st n1 t n2,
    t_name old = t_name t -> passes f t = true ->
    ~ In (t_name t) (map t_name (f1 ++ f2)) -> ~ In (t_name t) (map t_name (n1 ++ n2)) ->
    (forall id, exists id', dt (length n1) id t old = Some ([], id') /\ id_major id' = id_major id) ->
    diff_schemas dt drop ren create ord f (with_one sf f1 old f2) (with_one st n1 t n2) =
    diff_schemas (fun i => dt (skip (length n1) i)) drop ren create (order_without (length n1) ord) f
      (without sf f1 f2) (without st n1 n2).
  Proof.
    intros ord f sf f1 old f2 st n1 t n2 EN P NF NN D.
    unfold diff_schemas, with_one, without. cbn [s_tables].
    set (k := length n1). set (h := skip k). set (n := t_name t).
    set (F := (f1 ++ old :: f2)%list). set (F' := (f1 ++ f2)%list).
    assert (L : forall m, m <> n -> tables_by_name F m = tables_by_name F' m).
    { intros m Hm. apply lookup_other. now rewrite EN. }
    assert (LO : tables_by_name F n = Some old).
    { unfold n. rewrite <- EN. apply lookup_one. rewrite EN. rewrite map_app, in_app_iff in NF. tauto. }
    assert (R0 : but n (ss_new (map t_name F)) = ss_new (map t_name F')).
    { rewrite but_new. unfold F, F'. rewrite !map_app. simpl. rewrite but_app. simpl. rewrite EN. unfold n. rewrite String.eqb_refl.
      simpl. rewrite map_app, in_app_iff in NF. rewrite !but_id by tauto. reflexivity. }
    pose proof (pos_skip n1 n2 t) as PS. fold k in PS. fold h in PS.
    pose proof (pos_app n1 n2) as PA. fold k in PA.
    rewrite PS, PA.
    assert (NN1 : forall p : nat * table, In p (with_pos n1) -> t_name (snd p) <> n).
    { intros [i u] Hi E. apply NN. rewrite map_app, in_app_iff. left. fold n. rewrite <- E. apply in_map. simpl.
      apply with_pos_in. eauto. }
    assert (NN2 : forall p : nat * table, In p (combine (seq k (length n2)) n2) -> t_name (snd p) <> n).
    { intros [i u] Hi E. apply NN. rewrite map_app, in_app_iff. right. fold n. rewrite <- E. apply in_map. simpl.
      apply in_combine_r in Hi. exact Hi. }
    assert (S : agrees h n
      (scan_tables dt f F (map (pmap h) (with_pos n1) ++ (k, t) :: map (pmap h) (combine (seq k (length n2)) n2))%list new_id (ss_new (map t_name F)))
      (scan_tables (fun i => dt (h i)) f F' (with_pos n1 ++ combine (seq k (length n2)) n2)%list new_id (ss_new (map t_name F')))).
    { rewrite !scan_app.
      pose proof (scan_positions h n f F F' (with_pos n1) new_id new_id _ _ L NN1 eq_refl R0) as S1.
      destruct (scan_tables dt f F (map (pmap h) (with_pos n1)) new_id (ss_new (map t_name F))) as [[[[c1 i1] r1] a1]|],
        (scan_tables (fun i0 => dt (h i0)) f F' (with_pos n1) new_id (ss_new (map t_name F'))) as [[[[c2 i2] r2] a2]|];
        simpl in S1; try tauto; auto.
      destruct S1 as [-> [S2 [S3 S4]]].
      cbn [scan_tables]. rewrite P. cbn [negb]. fold n. rewrite LO.
      destruct (D (bump_major i1)) as [id' [E1 E2]]. fold k in E1. rewrite E1.
      assert (S5 : agrees h n
        (scan_tables dt f F (map (pmap h) (combine (seq k (length n2)) n2)) (revert_major id') (ss_remove r1 n))
        (scan_tables (fun i => dt (h i)) f F' (combine (seq k (length n2)) n2) i2 r2)).
      { apply scan_positions; auto.
        - unfold revert_major. simpl. rewrite E2. simpl. exact S2.
        - unfold ss_remove. rewrite <- S3. apply but_twice. }
      destruct (scan_tables dt f F (map (pmap h) (combine (seq k (length n2)) n2)) (revert_major id') (ss_remove r1 n)) as [[[[c3 i3] r3] a3]|],
        (scan_tables (fun i0 => dt (h i0)) f F' (combine (seq k (length n2)) n2) i2 r2) as [[[[c4 i4] r4] a4]|];
        simpl in S5 |- *; try tauto.
      destruct S5 as [-> [S6 [S7 S8]]]. repeat split; auto. rewrite map_app. now rewrite S4, S8. }
    destruct (scan_tables dt f F (map (pmap h) (with_pos n1) ++ (k, t) :: map (pmap h) (combine (seq k (length n2)) n2))%list new_id (ss_new (map t_name F)))
      as [[[[c1 i1] r1] a1]|] eqn:E1,
      (scan_tables (fun i0 => dt (h i0)) f F' (with_pos n1 ++ combine (seq k (length n2)) n2)%list new_id (ss_new (map t_name F')))
      as [[[[c2 i2] r2] a2]|] eqn:E2; simpl in S; try tauto.
    destruct S as [-> [S2 [S3 S4]]].
    assert (NR : ~ In n r1).
    { apply (scan_removes _ _ _ _ _ _ _ _ _ _ E1 k t); auto. apply in_or_app. right. now left. }
    assert (R12 : r2 = r1) by (rewrite <- S3; now apply but_id). clear S3. subst r2.
    assert (LR : forall m, In m r1 -> tables_by_name F m = tables_by_name F' m).
    { intros m Hm. apply L. intros ->. contradiction. }
    rewrite S4, (find_renamed_positions _ _ _ h a2 r1 LR).
    destruct (find_renamed (tables_by_name F') same_columns a2 r1) as [renamed removed] eqn:EF. cbn [fst snd].
    assert (LR2 : forall m, In m (ss_slice removed) -> tables_by_name F m = tables_by_name F' m).
    { intros m Hm. apply (proj1 (ss_slice_in _ _)) in Hm. apply LR.
      assert (G : forall added r ren0 rem0, find_renamed (tables_by_name F') same_columns added r = (ren0, rem0) -> In m rem0 -> In m r).
      { clear. induction added as [|[i a] added IH]; intros r ren0 rem0 E H; simpl in E.
        - injection E as _ <-. auto.
        - destruct (match_removed (tables_by_name F') same_columns a (ss_slice r)) as [[x y]|].
          + destruct (find_renamed (tables_by_name F') same_columns added (ss_remove r x)) as [m1 rest] eqn:E'.
            injection E as _ <-. apply (IH _ _ _ E') in H. unfold ss_remove in H. apply filter_In in H. tauto.
          + eapply IH; eauto. }
      eapply G; eauto. }
    destruct (drop_same F F' (ss_slice removed) i1 i2 S2 LR2) as [D1 D2].
    destruct (drop_tables drop F (ss_slice removed) i1) as [css2 id2], (drop_tables drop F' (ss_slice removed) i2) as [css2' id2'].
    simpl in D1, D2. subst css2'.
    assert (M : map snd (ord (map (pmap h) renamed)) = map snd (order_without k ord renamed)).
    { unfold order_without. fold h. rewrite map_map. apply map_ext. intros [i p]. reflexivity. }
    destruct (rename_same _ _ id2 id2' D2 M) as [R1 R2].
    destruct (rename_tables ren (ord (map (pmap h) renamed)) id2) as [css3 id3],
      (rename_tables ren (order_without k ord renamed) id2') as [css3' id3'].
    simpl in R1, R2. subst css3'.
    rewrite not_renamed_positions by apply skip_inj.
    pose proof (create_same (not_renamed a2 renamed) id3 id3' R2) as C.
    revert C. generalize (create_tables create (not_renamed a2 renamed) id3').
    generalize (create_tables create (not_renamed a2 renamed) id3).
    intros [[css4 id4]|] [[css4' id4']|] C; simpl in C; try discriminate; [|reflexivity].
    injection C as ->. reflexivity.
  Qed.
End Skeleton.

(** ** The two comparisons *)

Lemma diff_table_alike : forall author comments suffix ord id t old,
  iteration_order ord -> NoDup (map c_name (t_cols t)) -> unchanged old t ->
  exists id', diff_table author comments suffix ord id t old = Some ([], id') /\ id_major id' = id_major id.
Proof.
  intros author comments suffix ord id t old HO ND [_ [E1 E2]].
  destruct (diff_table_self author comments suffix ord id t HO ND) as [id' E].
  exists id'. split.
  - rewrite <- E. unfold diff_table.
    assert (U : uq_name_set old = uq_name_set t) by (unfold uq_name_set; now rewrite E2).
    assert (K : pk_name_set old = pk_name_set t) by (unfold pk_name_set; now rewrite E2).
    rewrite U, K, E1, E2. rewrite !ss_equals_refl by (apply pk_name_set_nodup || apply uq_name_set_nodup). reflexivity.
  - pose proof (diff_table_ids author comments suffix ord id t t _ _ E) as I. apply I.
Qed.

Lemma diff_without : forall o sf f1 old f2 st n1 t n2 css,
  unchanged old t -> NoDup (map c_name (t_cols t)) -> selected (do_filter o) t ->
  ~ In (t_name t) (map t_name (f1 ++ f2)) -> ~ In (t_name t) (map t_name (n1 ++ n2)) ->
  may_report o (with_one sf f1 old f2) (with_one st n1 t n2) css <-> may_report o (without sf f1 f2) (without st n1 n2) css.
Proof.
  intros o sf f1 old f2 st n1 t n2 css U ND P NF NN.
  assert (S : forall ordT ordC, (forall i, iteration_order (ordC i)) ->
    get_diff ordT ordC o (with_one sf f1 old f2) (with_one st n1 t n2) =
    get_diff (order_without (length n1) ordT) (fun i => ordC (skip (length n1) i)) o (without sf f1 f2) (without st n1 n2)).
  { intros ordT ordC HC. unfold get_diff.
    rewrite (unchanged_skips _ _ _ _ ordT (do_filter o) sf f1 old f2 st n1 t n2); auto.
    - apply U.
    - now apply passes_selected.
    - intros id. apply diff_table_alike; auto. }
  split; intros [ordT [ordC [HT [HC E]]]].
  - exists (order_without (length n1) ordT), (fun i => ordC (skip (length n1) i)).
    split; [now apply order_without_ok|]. split; [auto|]. rewrite <- E. symmetry. now apply S.
  - exists (order_with (length n1) ordT), (fun i => ordC (unskip (length n1) i)).
    split; [now apply order_with_ok|]. split; [auto|]. rewrite S by auto. rewrite <- E. unfold get_diff.
    rewrite (diff_order _ _ _ _ _ ordT) by (intros; apply order_with_without).
    apply diff_each. intros i. now rewrite unskip_skip.
Qed.

Lemma lq_diff_table_alike : forall fk author comments suffix ord id t old,
  iteration_order ord -> NoDup (map c_name (t_cols t)) -> unchanged old t ->
  exists id', lq_diff_table fk author comments suffix ord id t old = Some ([], id') /\ id_major id' = id_major id.
Proof.
  intros fk author comments suffix ord id t old HO ND [_ [E1 E2]].
  destruct (lq_diff_table_self fk author comments suffix ord id t HO ND) as [id' E].
  exists id'. split.
  - rewrite <- E. unfold lq_diff_table.
    assert (U : uq_name_set old = uq_name_set t) by (unfold uq_name_set; now rewrite E2).
    assert (K : pk_name_set old = pk_name_set t) by (unfold pk_name_set; now rewrite E2).
    rewrite U, K, E1, E2. reflexivity.
  - pose proof (lq_diff_table_ids fk author comments suffix ord id t t _ _ E) as I. apply I.
Qed.

Lemma lq_diff_without : forall fk o sf f1 old f2 st n1 t n2 css,
  unchanged old t -> NoDup (map c_name (t_cols t)) -> selected (lo_filter o) t ->
  ~ In (t_name t) (map t_name (f1 ++ f2)) -> ~ In (t_name t) (map t_name (n1 ++ n2)) ->
  may_log fk o (with_one sf f1 old f2) (with_one st n1 t n2) css <-> may_log fk o (without sf f1 f2) (without st n1 n2) css.
Proof.
  intros fk o sf f1 old f2 st n1 t n2 css U ND P NF NN.
  assert (S : forall ordT ordC, (forall i, iteration_order (ordC i)) ->
    lq_diff fk ordT ordC o (with_one sf f1 old f2) (with_one st n1 t n2) =
    lq_diff fk (order_without (length n1) ordT) (fun i => ordC (skip (length n1) i)) o (without sf f1 f2) (without st n1 n2)).
  { intros ordT ordC HC. unfold lq_diff.
    rewrite (unchanged_skips _ _ _ _ ordT (lo_filter o) sf f1 old f2 st n1 t n2); auto.
    - apply U.
    - now apply passes_selected.
    - intros id. apply lq_diff_table_alike; auto. }
  split; intros [ordT [ordC [HT [HC E]]]].
  - exists (order_without (length n1) ordT), (fun i => ordC (skip (length n1) i)).
    split; [now apply order_without_ok|]. split; [auto|]. rewrite <- E. symmetry. now apply S.
  - exists (order_with (length n1) ordT), (fun i => ordC (unskip (length n1) i)).
    split; [now apply order_with_ok|]. split; [auto|]. rewrite S by auto. rewrite <- E. unfold lq_diff.
    rewrite (diff_order _ _ _ _ _ ordT) by (intros; apply order_with_without).
    apply diff_each. intros i. now rewrite unskip_skip.
Qed.

(** any number of such tables *)
Lemma report_same : forall o from to from' to' css, leave_out (do_filter o) from to from' to' ->
  may_report o from to css <-> may_report o from' to' css.
Proof.
  intros o from to from' to' css H. induction H; [reflexivity|]. rewrite <- IHleave_out. now apply diff_without.
Qed.

Lemma log_same : forall fk o from to from' to' css, leave_out (lo_filter o) from to from' to' ->
  may_log fk o from to css <-> may_log fk o from' to' css.
Proof.
  intros fk o from to from' to' css H. induction H; [reflexivity|]. rewrite <- IHleave_out. now apply lq_diff_without.
Qed.
