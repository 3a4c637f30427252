(** Values of columns through migrations (C118) *)
From Coq Require Import String List NArith Bool Lia Sorting.Permutation.
From Verif.Model Require Import GoString Util Octopus DiffCore Diff Liquibase.
From Verif.Spec Require Import DiffSpec LiquibaseSpec Database TraceSpec.
From Verif.Proofs Require Import StringLemmas ListLemmas OctopusProofs DiffCoreProofs DiffFacts LiquibaseProofs
  LiquibaseFacts DatabaseProofs MigrationProofs SchemaMigration.
Import ListNotations.
Local Open Scope string_scope.

Lemma trace_app : forall {A} (m : A -> place -> option place) a b p,
  trace m (a ++ b)%list p = match trace m a p with Some q => trace m b q | None => None end.
Proof. intros A m. induction a as [|x a IH]; simpl; intros b p; auto. destruct (m x p); auto. Qed.

(** statements that leave all values where they are *)
Definition still (ch : lq_change) : Prop := forall p, log_moves ch p = Some p.
Lemma trace_still : forall l p, Forall still l -> trace log_moves l p = Some p.
Proof. intros l p F. induction F as [|x l H F IH]; simpl; auto. now rewrite H. Qed.

Lemma inside_still : forall ch p, inside ch -> fst p <> target ch -> log_moves ch p = Some p.
Proof.
  intros ch [n c] I N. destruct ch; simpl in *; try contradiction; auto; unfold column_gone, column_renamed; cbn [fst snd];
    destruct (String.eqb_spec n table); try contradiction; reflexivity.
Qed.
Lemma trace_inside : forall l n c t, Forall (fun ch => inside ch /\ target ch = t) l -> n <> t ->
  trace log_moves l (n, c) = Some (n, c).
Proof.
  intros l n c t F N. induction F as [|x l [H1 H2] F IH]; simpl; auto. rewrite inside_still; auto. simpl. congruence.
Qed.

(** ** Renames, one after the other *)
Section Renames.
Context {A : Type} (nw old : A -> string).
Definition rename_one (k : string) (r : A) : string := if String.eqb k (old r) then nw r else k.

Lemma renames_other : forall l k, ~ In k (map old l) -> fold_left rename_one l k = k.
Proof.
  induction l as [|r l IH]; simpl; intros k N; auto. unfold rename_one at 2.
  destruct (String.eqb_spec k (old r)) as [->|E]; [exfalso; auto|]. apply IH. tauto.
Qed.
Lemma renames_hit : forall l r, NoDup (map old l) -> (forall x y, In x l -> In y l -> nw x <> old y) -> In r l ->
  fold_left rename_one l (old r) = nw r.
Proof.
  induction l as [|x l IH]; simpl; intros r D N H; [destruct H|]. inversion D as [|? ? D1 D2]; subst.
  unfold rename_one at 2. destruct H as [->|H].
  - rewrite String.eqb_refl. apply renames_other. intros C. apply in_map_iff in C. destruct C as [y [E C]].
    apply (N r y); auto.
  - destruct (String.eqb_spec (old r) (old x)) as [E|E].
    + exfalso. apply D1. rewrite <- E. now apply in_map.
    + apply IH; auto.
Qed.
End Renames.

Lemma trace_renames : forall t R k,
  trace log_moves (flat_map (lq_rename_changes t) R) (t_name t, k) =
  Some (t_name t, fold_left (rename_one (fun r : nat * (column * column) => c_name (fst (snd r))) (fun r => c_name (snd (snd r)))) R k).
Proof.
  intros t. induction R as [|[i [c o]] R IH]; intros k; [reflexivity|].
  cbn [flat_map]. rewrite trace_app. unfold lq_rename_changes at 1. cbn [fst snd fold_left].
  cbn [trace log_moves]. unfold column_renamed. cbn [fst snd]. rewrite String.eqb_refl. cbn [andb].
  unfold rename_one at 2. cbn [fst snd].
  destruct (String.eqb k (c_name o)); destruct (c_notnull o); cbn [trace log_moves]; apply IH.
Qed.

Lemma trace_table_renames : forall suffix R n k,
  trace log_moves (flat_map (lq_rename_all suffix) R) (n, k) =
  Some (fold_left (rename_one (fun r : nat * (table * table) => t_name (fst (snd r))) (fun r => t_name (snd (snd r)))) R n, k).
Proof.
  intros suffix. induction R as [|[i [a b]] R IH]; intros n k; [reflexivity|].
  cbn [flat_map]. rewrite trace_app. unfold lq_rename_all at 1. cbn [fst snd fold_left].
  unfold rename_one at 2. cbn [fst snd].
  destruct (Nat.ltb 0 (ss_size (uq_name_set b))), (Nat.ltb 0 (ss_size (uq_name_set a)));
    cbn [app trace log_moves]; unfold table_renamed; cbn [fst snd]; destruct (String.eqb n (t_name b)); apply IH.
Qed.

Lemma trace_drops : forall t l k, trace log_moves (map (LqDropColumn t) l) (t, k) = if str_in k l then None else Some (t, k).
Proof.
  intros t. induction l as [|x l IH]; intros k; [reflexivity|]. cbn [map trace log_moves].
  unfold column_gone. cbn [fst snd]. rewrite String.eqb_refl. cbn [andb].
  destruct (String.eqb_spec k x) as [->|E].
  - assert (C : str_in x (x :: l) = true) by (apply str_in_iff; now left). now rewrite C.
  - rewrite IH. assert (Q : str_in k l = str_in k (x :: l)).
    { apply eq_true_iff_eq. rewrite !str_in_iff. simpl. split; auto. intros [C|C]; auto. congruence. }
    now rewrite Q.
Qed.
Lemma trace_table_drops : forall l n k, trace log_moves (map LqDropTable l) (n, k) = if str_in n l then None else Some (n, k).
Proof.
  induction l as [|x l IH]; intros n k; [reflexivity|]. cbn [map trace log_moves].
  unfold table_gone. cbn [fst snd].
  destruct (String.eqb_spec n x) as [->|E].
  - assert (C : str_in x (x :: l) = true) by (apply str_in_iff; now left). now rewrite C.
  - rewrite IH. assert (Q : str_in n l = str_in n (x :: l)).
    { apply eq_true_iff_eq. rewrite !str_in_iff. simpl. split; auto. intros [C|C]; auto. congruence. }
    now rewrite Q.
Qed.

(** ** One table *)

(** what happens to the columns of a table: [tr] tells where the values of a column go *)
Record table_ok (comments : bool) (old t : table) (tr : string -> option place) : Prop := {
  tb_stays : forall k, In k (map c_name (t_cols old)) -> In k (map c_name (t_cols t)) -> tr k = Some (t_name t, k);
  tb_goes : forall k q, In k (map c_name (t_cols old)) -> tr k = Some q ->
    q = (t_name t, k) /\ In k (map c_name (t_cols t)) \/
    exists o c, In o (t_cols old) /\ In c (t_cols t) /\ k = c_name o /\ q = (t_name t, c_name c) /\ same_attributes comments c o /\
      ~ In (c_name o) (map c_name (t_cols t)) /\ ~ In (c_name c) (map c_name (t_cols old));
  tb_apart : forall k k' q, In k (map c_name (t_cols old)) -> In k' (map c_name (t_cols old)) ->
    tr k = Some q -> tr k' = Some q -> k = k';
  tb_lost : forall o c, In o (t_cols old) -> In c (t_cols t) -> same_attributes comments c o ->
    ~ In (c_name o) (map c_name (t_cols t)) -> ~ In (c_name c) (map c_name (t_cols old)) -> tr (c_name o) = None ->
    exists k', In k' (map c_name (t_cols old)) /\ tr k' = Some (t_name t, c_name c)
}.

Lemma same_is_renamed : forall c o comments, same_attributes comments c o -> is_renamed c o (negb comments) = true.
Proof.
  intros c o comments (H1 & H2 & H3 & H4 & H5 & H6 & H7 & H8 & H9 & H10). unfold is_renamed.
  rewrite H1, H2, H3, H4, H5, H6, H7, H8, H9, !String.eqb_refl, !N.eqb_refl, !Bool.eqb_reflx.
  destruct comments; simpl; [rewrite H10, String.eqb_refl; auto|reflexivity].
Qed.

Definition col_new (r : nat * (column * column)) : string := c_name (fst (snd r)).
Definition col_old (r : nat * (column * column)) : string := c_name (snd (snd r)).

Section Core.
Variables (comments : bool) (t old : table) (removed g : list string) (renamed R : list (nat * (column * column))).
Hypothesis Dt : NoDup (map c_name (t_cols t)).
Hypothesis PR : Permutation renamed R.
Hypothesis Ng : NoDup g.
Hypothesis Pg : Permutation g (map col_old renamed ++ removed).
Hypothesis Hg : forall k, In k g <-> In k (map c_name (t_cols old)) /\ ~ In k (map c_name (t_cols t)).
Hypothesis Hr : forall i c o, In (i, (c, o)) renamed ->
       nth_error (t_cols t) i = Some c /\ ~ In (c_name c) (map c_name (t_cols old)) /\
       column_name_map (t_cols old) (c_name o) = Some o /\ is_renamed c o (negb comments) = true.
Hypothesis Hi : NoDup (map fst renamed).
Hypothesis Do : NoDup (map c_name (t_cols old)).
Hypothesis Hm : forall i c, In (i, c) (filter (is_added_col (t_cols old)) (with_pos (t_cols t))) ->
  (forall b r, ~ In (i, (b, r)) renamed) ->
  forall n o, In n removed -> column_name_map (t_cols old) n = Some o -> is_renamed c o (negb comments) = false.
Variable tr : string -> option place.
Hypothesis T : forall k, tr k = if str_in k (ss_slice removed) then None else Some (t_name t, fold_left (rename_one col_new col_old) R k).

Lemma core_in : forall r, In r R <-> In r renamed.
Proof. intros r. split; apply Permutation_in; [symmetry|]; exact PR. Qed.
Lemma core_old : forall r, In r R -> In (col_old r) (map c_name (t_cols old)) /\ ~ In (col_old r) (map c_name (t_cols t)).
Proof.
  intros r Hin. apply Hg. apply (Permutation_in _ (Permutation_sym Pg)). apply in_or_app. left.
  apply core_in in Hin. exact (in_map col_old _ _ Hin).
Qed.
Lemma core_new : forall r, In r R -> In (fst (snd r)) (t_cols t) /\ ~ In (col_new r) (map c_name (t_cols old)) /\
             In (snd (snd r)) (t_cols old) /\ same_attributes comments (fst (snd r)) (snd (snd r)).
Proof.
  intros [i [c o]] Hin. apply core_in in Hin. apply Hr in Hin. destruct Hin as [H1 [H2 [H3 H4]]]. cbn [fst snd].
  split; [now apply nth_error_In in H1|]. split; [exact H2|]. split; [now apply column_name_map_some in H3|].
  now apply is_renamed_same.
Qed.
Lemma core_hit : forall r, In r R -> tr (col_old r) = Some (t_name t, col_new r).
Proof.
  intros r B. rewrite T.
  destruct (str_in (col_old r) (ss_slice removed)) eqn:C.
  - exfalso. apply str_in_iff in C. apply (proj1 (ss_slice_in _ _)) in C.
    pose proof (Permutation_NoDup Pg Ng) as N. apply (NoDup_app_disj _ _ (col_old r) N); auto.
    apply core_in in B. exact (in_map col_old _ _ B).
  - rewrite renames_hit; auto.
    + apply (Permutation_NoDup (Permutation_map col_old PR)). pose proof (Permutation_NoDup Pg Ng) as N.
      now apply NoDup_app_l in N.
    + intros x y Hx Hy E. apply core_new in Hx. apply core_old in Hy. rewrite E in Hx. tauto.
Qed.
Lemma core_cases : forall k, In k (map c_name (t_cols old)) ->
     In k (map c_name (t_cols t)) /\ tr k = Some (t_name t, k) \/
     ~ In k (map c_name (t_cols t)) /\ tr k = None \/
     ~ In k (map c_name (t_cols t)) /\ exists r, In r R /\ k = col_old r /\ tr k = Some (t_name t, col_new r).
Proof.
  intros k Hk. destruct (in_dec string_dec k (map c_name (t_cols t))) as [Y|N].
  - left. split; auto. rewrite T. destruct (str_in k (ss_slice removed)) eqn:C.
    + apply str_in_iff in C. apply (proj1 (ss_slice_in _ _)) in C.
      assert (G : In k g) by (apply (Permutation_in _ (Permutation_sym Pg)); apply in_or_app; now right).
      apply Hg in G. tauto.
    + rewrite renames_other; auto. intros C'. apply in_map_iff in C'. destruct C' as [r [E' C']].
      apply core_old in C'. rewrite E' in C'. tauto.
  - right. assert (G : In k g) by (apply Hg; auto). apply (Permutation_in _ Pg) in G. apply in_app_iff in G.
    destruct G as [G|G].
    + right. split; auto. apply in_map_iff in G. destruct G as [r [<- G]]. apply core_in in G. exists r.
      split; auto. split; auto. now apply core_hit.
    + left. split; auto. rewrite T. assert (C : str_in k (ss_slice removed) = true) by (now apply str_in_iff, ss_slice_in).
      now rewrite C.
Qed.
Lemma core_new_inj : forall x y, In x R -> In y R -> col_new x = col_new y -> col_old x = col_old y.
Proof.
  intros [i [c o]] [j [c' o']] Hx Hy Exy. unfold col_new in Exy. cbn [fst snd] in Exy. apply core_in in Hx, Hy.
  pose proof (Hr _ _ _ Hx) as [X1 _]. pose proof (Hr _ _ _ Hy) as [Y1 _].
  assert (i = j).
  { apply (proj1 (NoDup_nth_error (map c_name (t_cols t))) Dt).
    - rewrite map_length. apply nth_error_Some. congruence.
    - rewrite !nth_error_map, X1, Y1. simpl. now f_equal. }
  subst j. assert (Q : (i, (c, o)) = (i, (c', o'))).
  { clear - Hi Hx Hy. induction renamed as [|z l IH]; [destruct Hx|]. simpl in Hi. inversion Hi as [|? ? A B]; subst.
    destruct Hx as [->|Hx], Hy as [Hy|Hy]; auto.
    - exfalso. apply A. exact (in_map fst _ _ Hy).
    - subst z. exfalso. apply A. exact (in_map fst _ _ Hx). }
  injection Q as -> ->. reflexivity.
Qed.
Lemma core_ok : table_ok comments old t tr.
Proof.
  constructor.
  - intros k H1 H2. destruct (core_cases k H1) as [[_ X]|[[X _]|[X _]]]; auto; contradiction.
  - intros k q H1 H2. destruct (core_cases k H1) as [[A X]|[[_ X]|[A [r [B [C X]]]]]]; rewrite X in H2.
    + left. split; [congruence|auto].
    + discriminate.
    + right. exists (snd (snd r)), (fst (snd r)). destruct (core_new r B) as [N1 [N2 [N3 N4]]]. destruct (core_old r B) as [O1 O2].
      split; auto. split; auto. split; auto. split; [unfold col_new in H2; congruence|]. auto.
  - intros k k' q H1 H2 X1 X2.
    destruct (core_cases k H1) as [[A X]|[[_ X]|[A [r [B [C X]]]]]]; rewrite X in X1; try discriminate;
    destruct (core_cases k' H2) as [[A' X']|[[_ X']|[A' [r' [B' [C' X']]]]]]; rewrite X' in X2; try discriminate.
    + congruence.
    + exfalso. apply core_new in B'. assert (Q : k = col_new r') by congruence. rewrite Q in H1. tauto.
    + exfalso. apply core_new in B. assert (Q : k' = col_new r) by congruence. rewrite Q in H2. tauto.
    + subst k k'. apply core_new_inj; auto. congruence.
  - intros o c Ho Hc Sa No Nc Tn.
    assert (Rm : In (c_name o) removed).
    { rewrite T in Tn. destruct (str_in (c_name o) (ss_slice removed)) eqn:C; [|discriminate].
      apply str_in_iff in C. exact (proj1 (ss_slice_in _ _) C). }
    destruct (proj1 (with_pos_in (t_cols t) c) Hc) as [i Hin].
    assert (Ha : In (i, c) (filter (is_added_col (t_cols old)) (with_pos (t_cols t)))).
    { apply filter_In. split; auto. unfold is_added_col. apply negb_true_iff. now apply str_in_false. }
    assert (X : exists r, In r renamed /\ fst r = i).
    { destruct (in_dec PeanoNat.Nat.eq_dec i (map fst renamed)) as [Y|N].
      - apply in_map_iff in Y. destruct Y as [r [E Y]]. eauto.
      - exfalso. assert (F : is_renamed c o (negb comments) = false).
        { apply (Hm i c Ha) with (n := c_name o); auto.
          - intros b r C. apply N. exact (in_map fst _ _ C).
          - now apply column_name_map_nodup. }
        rewrite (same_is_renamed _ _ _ Sa) in F. discriminate. }
    destruct X as [[i' [c' o']] [X1 X2]]. cbn [fst] in X2. subst i'.
    destruct (Hr _ _ _ X1) as [Y1 _]. apply with_pos_nth in Hin. assert (c' = c) by congruence. subst c'.
    pose proof (proj2 (core_in _) X1) as X3. exists (c_name o'). split; [exact (proj1 (core_old _ X3))|].
    exact (core_hit _ X3).
Qed.
End Core.

Section Logs.
Variable fk : string -> bool.

Lemma column_still : forall comments t c o l, lq_column_changes fk comments t (c, o) = Some l -> c_name c = c_name o ->
  Forall still l /\ forall p, ~ Exists (makes p) l.
Proof.
  intros comments t c o l H E. unfold lq_column_changes in H. rewrite E, String.eqb_refl in H. cbn [negb app] in H.
  assert (G : Forall (fun ch => still ch /\ forall p, ~ makes p ch) l).
  { assert (S : forall (b : bool) ch, still ch /\ (forall p, ~ makes p ch) -> Forall (fun ch => still ch /\ forall p, ~ makes p ch) (if b then [ch] else [])).
    { intros [] ch H0; repeat constructor; apply H0. }
    match type of H with context[Some (?chs ++ _)%list] =>
      assert (C : Forall (fun ch => still ch /\ forall p, ~ makes p ch) chs); [|set (l0 := chs) in *; clearbody l0] end.
    { repeat (apply Forall_app; split); apply S; try (destruct (c_notnull c)); (split; [intros q; reflexivity|intros q []]). }
    destruct (negb (String.eqb (c_default c) (c_default o))); [|now injection H as <-].
    destruct (String.eqb (c_default c) "").
    - injection H as <-. apply Forall_app. split; auto. constructor; [|constructor]. split; [intros q; reflexivity|intros q []].
    - destruct (new_lq_default fk c); [|discriminate]. injection H as <-. apply Forall_app. split; auto.
      constructor; [|constructor]. split; [intros q; reflexivity|intros q []]. }
  split.
  - eapply Forall_impl; [|exact G]. simpl. tauto.
  - intros p C. apply Exists_exists in C. destruct C as [x [C1 C2]]. rewrite Forall_forall in G. apply G in C1.
    destruct C1 as [_ C1]. now apply (C1 p).
Qed.

Lemma table_brought : forall author comments suffix ord id t old css id',
  lq_diff_table fk author comments suffix ord id t old = Some (css, id') -> iteration_order ord ->
  NoDup (map c_name (t_cols t)) -> NoDup (map c_name (t_cols old)) ->
  table_ok comments old t (fun k => trace log_moves (lq_all css) (t_name t, k)) /\
  (forall k, In k (map c_name (t_cols t)) ->
    (Exists (makes (t_name t, k)) (lq_all css) <->
     ~ exists k', In k' (map c_name (t_cols old)) /\ trace log_moves (lq_all css) (t_name t, k') = Some (t_name t, k))) /\
  Forall (fun ch => inside ch /\ target ch = t_name t) (lq_all css).
Proof.
  intros author comments suffix ord id t old css id' H Hord Dt Do.
  pose proof (lq_all_inside _ _ _ _ _ _ _ _ _ _ H Hord) as [_ In1].
  destruct (lq_diff_table_changes _ _ _ _ _ _ _ _ _ _ H Hord)
    as [lcol [removed [renamed [adds [E [_ [F [Ad [Nr [[g [Ng [Pg Hg]]] [Hr [Hi Hm]]]]]]]]]]]].
  cbv zeta in E, Ad, Hm. set (final := filter _ (filter _ _)) in *.
  set (R := ord renamed) in *.
  assert (PR : Permutation renamed R) by (symmetry; apply Hord).
  (* the trace *)
  assert (T : forall k, trace log_moves (lq_all css) (t_name t, k) =
            if str_in k (ss_slice removed) then None else Some (t_name t, fold_left (rename_one col_new col_old) R k)).
  { intros k. rewrite E. rewrite trace_app.
    assert (S0 : forall (b : bool) ch, still ch -> Forall still (if b then [ch] else [])) by (intros [] ch S0; repeat constructor; auto).
    rewrite trace_still by (apply S0; intros q; reflexivity). rewrite trace_app.
    rewrite trace_still. 2:{ clear - F. assert (G : forall p x, lq_column_changes fk comments t p = Some x ->
          In p (kept_cols (t_cols old) (with_pos (t_cols t))) -> Forall still x).
        { intros [c o] x Hx Hk. apply kept_cols_in in Hk. destruct Hk as [_ Hk]. apply column_name_map_some in Hk.
          eapply column_still; [exact Hx|]. symmetry. tauto. }
        induction F as [|p x K l' Hx F IH]; simpl; [constructor|]. apply Forall_app. split.
        - eapply G; [exact Hx|now left].
        - apply IH. intros q y Hy Hq. eapply G; [exact Hy|now right]. }
    rewrite trace_app. rewrite trace_still by (apply S0; intros q; reflexivity).
    rewrite trace_app, trace_drops. destruct (str_in k (ss_slice removed)); [reflexivity|].
    rewrite trace_app, trace_renames. apply trace_still.
    repeat (apply Forall_app; split).
    - destruct final; repeat constructor.
    - match goal with |- Forall _ (if ?b then _ else _) => destruct b end; [|constructor].
      apply Forall_app. split; apply S0; intros q; reflexivity.
    - match goal with |- Forall _ (if ?b then _ else _) => destruct b end; [|constructor]. apply S0; intros q; reflexivity. }
  pose proof (core_cases comments t old removed g renamed R PR Ng Pg Hg Hr
                (fun k => trace log_moves (lq_all css) (t_name t, k)) T) as Sp.
  pose proof (core_old t old removed g renamed R PR Pg Hg) as ON.
  pose proof (core_hit comments t old removed g renamed R PR Ng Pg Hg Hr
                (fun k => trace log_moves (lq_all css) (t_name t, k)) T) as Ht.
  cbv beta in Sp, Ht.
  split; [|split].
  - exact (core_ok comments t old removed g renamed R Dt PR Ng Pg Hg Hr Hi Do Hm _ T).
  - intros k Hk.
    assert (M : Exists (makes (t_name t, k)) (lq_all css) <-> In k (map (fun ic => c_name (snd ic)) final)).
    { assert (L : In k (map (fun ic => c_name (snd ic)) final) <-> In k (map lc_name adds)).
      { now rewrite (add_list_names fk _ _ _ _ Ad). }
      rewrite L, Exists_exists. clear L. split.
      - intros [ch [C1 C2]].
        assert (NC : forall n r cols, ch <> LqCreateTable n r cols).
        { intros n r cols ->. rewrite Forall_forall in In1. apply In1 in C1. destruct C1 as [[] _]. }
        destruct ch; simpl in C2; try contradiction; [now exfalso; eapply NC|].
        assert (Q : cols = adds); [|subst; tauto].
        rewrite E in C1. repeat rewrite in_app_iff in C1.
        assert (B1 : forall (b : bool) ch, In (LqAddColumn table cols) (if b then [ch] else []) -> LqAddColumn table cols = ch).
        { intros [] ch Hb; simpl in Hb; [|contradiction]. destruct Hb as [Hb|Hb]; [now symmetry|contradiction]. }
        destruct C1 as [C1|[C1|[C1|[C1|[C1|[C1|[C1|C1]]]]]]].
        + apply B1 in C1. discriminate.
        + exfalso. clear - F C1 C2.
          assert (G : forall p x, lq_column_changes fk comments t p = Some x ->
            In p (kept_cols (t_cols old) (with_pos (t_cols t))) -> forall p, ~ Exists (makes p) x).
          { intros [c o] x Hx Hk. apply kept_cols_in in Hk. destruct Hk as [_ Hk]. apply column_name_map_some in Hk.
            eapply column_still; [exact Hx|]. symmetry. tauto. }
          induction F as [|p x K l' Hx F IH]; simpl in C1; [destruct C1|]. apply in_app_iff in C1. destruct C1 as [C1|C1].
          * apply (G p x Hx (or_introl eq_refl) (t_name t, k)). apply Exists_exists. eexists. split; [exact C1|exact C2].
          * apply IH; auto. intros q y Hy Hq. eapply G; [exact Hy|now right].
        + apply B1 in C1. discriminate.
        + apply in_map_iff in C1. destruct C1 as [? [C1 _]]. discriminate.
        + apply in_flat_map in C1. destruct C1 as [r [_ C1]]. unfold lq_rename_changes in C1. destruct C1 as [C1|C1]; [discriminate|].
          apply B1 in C1. discriminate.
        + destruct final; simpl in C1; [contradiction|]. destruct C1 as [C1|C1]; [congruence|contradiction].
        + match type of C1 with In _ (if ?b then _ else _) => destruct b; [|destruct C1] end.
          apply in_app_iff in C1. destruct C1 as [C1|C1]; apply B1 in C1; discriminate.
        + match type of C1 with In _ (if ?b then _ else _) => destruct b; [|destruct C1] end. apply B1 in C1. discriminate.
      - intros Hin. exists (LqAddColumn (t_name t) adds). split; [|simpl; auto]. rewrite E. repeat rewrite in_app_iff.
        do 5 right. left. destruct final as [|f0 fs]; [|now left].
        simpl in Ad. injection Ad as <-. destruct Hin. }
    rewrite M. clear M.
    assert (NS : Permutation (t_cols t)
      (map fst (kept_cols (t_cols old) (with_pos (t_cols t))) ++ map (fun r => fst (snd r)) R ++ map snd final)).
    { apply new_split; auto. intros i c o X. apply Hr in X. tauto. }
    assert (DS : NoDup (map c_name (map fst (kept_cols (t_cols old) (with_pos (t_cols t))) ++ map (fun r => fst (snd r)) R ++ map snd final))).
    { eapply Permutation_NoDup; [apply Permutation_map; exact NS|exact Dt]. }
    rewrite !map_app, !map_map in DS.
    assert (KO : forall k', In k' (map (fun p : column * column => c_name (fst p)) (kept_cols (t_cols old) (with_pos (t_cols t)))) <->
              In k' (map c_name (t_cols t)) /\ In k' (map c_name (t_cols old))).
    { intros k'. rewrite in_map_iff. split.
      - intros [[c o] [Ec Hc]]. apply kept_cols_in in Hc. simpl in Ec. subst k'. destruct Hc as [Hc1 Hc2].
        split; [now apply in_map|]. apply column_name_map_some in Hc2. destruct Hc2 as [Hc2 Hc3].
        rewrite <- Hc3. now apply in_map.
      - intros [H1 H2]. apply in_map_iff in H1. destruct H1 as [c [<- H1]]. apply in_map_iff in H2. destruct H2 as [o [Eo H2]].
        exists (c, o). split; auto. apply kept_cols_in. split; auto. rewrite <- Eo. now apply column_name_map_nodup. }
    split.
    + intros Hf [k' [H1 H2]]. destruct (Sp k' H1) as [[A X]|[[_ X]|[A [r [B [C X]]]]]]; rewrite X in H2; try discriminate.
      * assert (k' = k) by congruence. subst k'.
        apply (NoDup_app_disj _ _ k DS); [apply KO; auto|]. apply in_or_app. now right.
      * assert (Q : col_new r = k) by congruence. apply NoDup_app_r in DS. apply (NoDup_app_disj _ _ k DS); auto.
        rewrite <- Q. exact (in_map (fun x : nat * (column * column) => c_name (fst (snd x))) _ _ B).
    + intros Hf. apply (Permutation_in _ (Permutation_map c_name NS)) in Hk. rewrite !map_app, !map_map, !in_app_iff in Hk.
      destruct Hk as [Hk|[Hk|Hk]]; auto; exfalso; apply Hf.
      * apply KO in Hk. destruct Hk as [K1 K2]. exists k. split; auto. destruct (Sp k K2) as [[_ X]|[[X _]|[X _]]]; auto; contradiction.
      * apply in_map_iff in Hk. destruct Hk as [r [Er Hk]]. exists (col_old r). split; [now apply ON|]. rewrite (Ht r Hk).
        now subst k.
  - exact In1.
Qed.
End Logs.
