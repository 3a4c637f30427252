(** Comparisons without changes *)
From Coq Require Import String Ascii List NArith Bool Lia Sorting.Permutation.
From Verif.Model Require Import GoString Util Octopus DiffCore Diff Liquibase.
From Verif.Spec Require Import DiffSpec LiquibaseSpec DriftSpec.
From Verif.Proofs Require Import ListLemmas StringLemmas UtilProofs OctopusProofs DiffCoreProofs DiffProofs DiffFacts LiquibaseProofs.
Import ListNotations.
Local Open Scope list_scope.

(** ** The skeleton *)
Section Skeleton.
  Context {CS : Type}.
  Variable diff_table : nat -> ident -> table -> table -> option (list CS * ident).
  Variable drop_cs : ident -> string -> table -> CS.
  Variable rename_cs : ident -> table -> table -> list CS * ident.
  Variable create_cs : ident -> table -> option (list CS * ident).
  Hypothesis renames : forall id a b id', rename_cs id a b <> ([], id').
  Hypothesis creates : forall id t id', create_cs id t <> Some ([], id').
  Variable P : table -> table -> Prop.
  Variables (f : option (table -> bool)) (from to : schema).
  Hypothesis Df : NoDup (map t_name (s_tables from)).
  Hypothesis tables : forall i t old, In t (s_tables to) -> In old (s_tables from) ->
    (P old t -> forall id, exists id', diff_table i id t old = Some ([], id')) /\
    (forall id id', diff_table i id t old = Some ([], id') -> P old t).

  Lemma scan_silent : forall fs ts id removed,
    (forall i t, In (i, t) ts -> passes f t = true ->
       exists old, tables_by_name fs (t_name t) = Some old /\ forall id, exists id', diff_table i id t old = Some ([], id')) ->
    exists id' r, scan_tables diff_table f fs ts id removed = Some ([], id', r, []).
  Proof.
    intros fs. induction ts as [|[i t] ts IH]; intros id removed H; simpl; [eauto|].
    destruct (passes f t) eqn:Hp; cbn [negb].
    - destruct (H i t) as [old [L D]]; [now left|assumption|]. rewrite L. destruct (D (bump_major id)) as [id1 ->].
      destruct (IH (revert_major id1) (ss_remove removed (t_name t))) as [id2 [r ->]]; eauto. intros. apply H; auto. now right.
    - apply IH. intros. apply H; auto. now right.
  Qed.

  Lemma silent : forall ord, iteration_order ord ->
    (diff_schemas diff_table drop_cs rename_cs create_cs ord f from to = Some [] <->
     (forall old, In old (s_tables from) -> exists t, In t (s_tables to) /\ selected f t /\ t_name t = t_name old) /\
     (forall t, In t (s_tables to) -> selected f t -> exists old, In old (s_tables from) /\ t_name old = t_name t /\ P old t)).
  Proof.
    intros ord O. split.
    - intros H. destruct (diff_schemas_shape _ _ _ _ _ _ _ _ _ H O)
        as (l1 & css2 & l3 & l4 & ren & rem & E & F1 & F2 & F3 & F4 & N & (g & NG & PG & G) & PA & R & NR & MX).
      symmetry in E. apply app_eq_nil in E as [E1 E]. apply app_eq_nil in E as [-> E]. apply app_eq_nil in E as [E3 E4].
      assert (Z : forall A (R : A -> list CS -> Prop) xs ll, concat ll = [] -> Forall2 R xs ll -> forall x, In x xs -> R x []).
      { clear. intros A R xs ll E F. induction F as [|x y xs ys H F IH]; [intros x []|]. cbn in E. apply app_eq_nil in E as [-> E].
        intros z [<-|Hz]; auto. }
      assert (ren = []).
      { destruct ren as [|p ren]; [reflexivity|]. assert (I : In p (ord (p :: ren))) by (apply (Permutation_in _ (Permutation_sym (O _))); now left).
        destruct (Z _ _ _ _ E3 F3 p I) as (id0 & id1 & _ & X). now apply renames in X. }
      subst ren.
      assert (rem = []).
      { inversion F2 as [X|]. symmetry in X. destruct rem as [|n rem]; [reflexivity|].
        assert (I : In n (ss_slice (n :: rem))) by (apply (proj2 (ss_slice_in _ _)); now left). rewrite X in I. destruct I. }
      subst rem. cbn [map app] in PG, PA. apply Permutation_sym, Permutation_nil in PG. subst g.
      assert (NA : filter (is_added f (s_tables from)) (with_pos (s_tables to)) = []).
      { destruct (filter (is_added f (s_tables from)) (with_pos (s_tables to))) as [|p l] eqn:EF; [reflexivity|]. exfalso.
        unfold not_renamed in F4. cbn in F4.
        destruct (Z _ _ _ _ E4 F4 (snd p)) as (id0 & id1 & _ & X); [now left|]. now apply creates in X. }
      split.
      + intros old Ho. destruct (in_dec string_dec (t_name old) (map t_name (filter (passes f) (s_tables to)))) as [I|I].
        * apply in_map_iff in I as (t & Et & It). apply filter_In in It as [It Ip]. exists t. split; [assumption|]. split; [now apply passes_selected|assumption].
        * exfalso. assert (X : In (t_name old) []) by (apply G; split; [now apply in_map|]; intros (t & It & Ip & Et); apply I;
            rewrite <- Et; apply in_map; apply filter_In; now split). destruct X.
      + intros t Ht Hs. destruct (proj1 (with_pos_in _ _) Ht) as [i Hi]. apply passes_selected in Hs.
        destruct (tables_by_name (s_tables from) (t_name t)) as [old|] eqn:L.
        * destruct (proj1 (conj (tables_by_name_some _ _ _ L) I)) as [Lo Ln]. exists old. split; [assumption|]. split; [assumption|].
          destruct (Z _ _ _ _ E1 F1 (i, t, old)) as (id0 & id1 & _ & X).
          { unfold kept. apply in_flat_map. exists (i, t). split; [assumption|]. cbn. rewrite Hs, L. now left. }
          cbn [fst snd] in X. exact (proj2 (tables i t old Ht Lo) _ _ X).
        * exfalso. assert (X : In (i, t) []) by (rewrite <- NA; apply filter_In; split; [assumption|]; unfold is_added; cbn [snd];
            rewrite Hs; cbn; apply negb_true_iff, not_true_iff_false; intros Q; apply in_names_lookup in Q as [x Q]; congruence).
          destruct X.
    - intros [A B]. unfold diff_schemas.
      destruct (scan_silent (s_tables from) (with_pos (s_tables to)) new_id (ss_new (map t_name (s_tables from)))) as (id' & r & Es).
      { intros i t Hi Hp. assert (Ht : In t (s_tables to)) by (apply with_pos_in; eauto).
        destruct (B t Ht) as (old & Io & En & Q); [now apply passes_selected|]. exists old.
        split; [rewrite <- En; now apply tables_by_name_nodup|]. exact (proj1 (tables i t old Ht Io) Q). }
      rewrite Es. apply (scan_spec diff_table drop_cs rename_cs create_cs) in Es. destruct Es as [_ [_ [K _]]].
      assert (r = []).
      { destruct r as [|n r]; auto. exfalso. destruct (proj1 (K n)) as [X Y]; [now left|]. apply Y.
        rewrite ss_new_in in X. apply in_map_iff in X as (old & <- & Io). destruct (A old Io) as (t & It & Is & Et).
        destruct (proj1 (with_pos_in _ _) It) as [i Hi]. exists (i, t). split; [assumption|]. split; [now apply passes_selected|assumption]. }
      subst r. simpl. assert (X : ord [] = []) by (apply Permutation_nil; symmetry; apply O). rewrite X. reflexivity.
  Qed.
End Skeleton.

(** ** Tables *)
Lemma if_nil {A} (b : bool) (x : A) l : (if b then x :: l else []) = [] -> b = false.
Proof. destruct b; [discriminate|reflexivity]. Qed.
Lemma eqb_same : forall a b, negb (String.eqb a b) = false -> a = b.
Proof. intros a b H. apply negb_false_iff in H. now apply String.eqb_eq. Qed.

Definition quiet_column (comments : bool) (p : column * column) : Prop :=
  let '(c, o) := p in
  c_name c = c_name o /\ c_type c = c_type o /\ c_size c = c_size o /\ c_scale c = c_scale o /\ c_notnull c = c_notnull o /\
  c_default c = c_default o /\ (comments = true -> c_desc c = c_desc o).

Lemma column_quiet : forall comments t c o, column_changes comments t (c, o) = [] <-> quiet_column comments (c, o) /\ c_autoinc c = c_autoinc o.
Proof.
  intros comments t c o. unfold column_changes, quiet_column. split.
  - intros H. repeat (apply app_eq_nil in H as [?H0 H]).
    apply if_nil in H, H0, H1, H2, H3, H4. rewrite !orb_false_iff in H1. destruct H1 as [[A B] C].
    apply eqb_same in H0, H, A. apply negb_false_iff in B, C, H3, H4. apply N.eqb_eq in B, C. apply Bool.eqb_prop in H3, H4.
    repeat split; auto. intros ->. cbn in H2. now apply eqb_same in H2.
  - intros [(E1 & E2 & E3 & E4 & E5 & E6 & E7) E8]. rewrite E1, E2, E3, E4, E5, E6, E8, !String.eqb_refl, !N.eqb_refl, !Bool.eqb_reflx.
    destruct comments; cbn; [|reflexivity]. rewrite (E7 eq_refl), String.eqb_refl. reflexivity.
Qed.
Lemma lq_column_quiet : forall fk comments t c o,
  lq_column_changes fk comments t (c, o) = Some [] <-> quiet_column comments (c, o) /\ (c_autoinc c = true -> c_autoinc o = true).
Proof.
  intros fk comments t c o. unfold lq_column_changes, quiet_column. split.
  - destruct (String.eqb_spec (c_default c) (c_default o)) as [Ed|Nd]; cbn [negb].
    + intros H. injection H as H. repeat (apply app_eq_nil in H as [?H0 H]).
      apply if_nil in H, H0, H1, H2, H3. rewrite !orb_false_iff in H1. destruct H1 as [[A B] C].
      apply eqb_same in H0, A. apply negb_false_iff in B, C, H3. apply N.eqb_eq in B, C. apply Bool.eqb_prop in H3.
      repeat split; auto; [intros ->; cbn in H2; now apply eqb_same in H2|].
      intros X. rewrite X in H. destruct (c_autoinc o); [reflexivity|discriminate].
    + destruct (String.eqb (c_default c) "").
      * intros H. injection H as H. now apply app_eq_nil in H.
      * destruct (new_lq_default fk c); [|discriminate]. cbn [option_map]. intros H. injection H as H. now apply app_eq_nil in H.
  - intros [(E1 & E2 & E3 & E4 & E5 & E6 & E7) E8]. rewrite E1, E2, E3, E4, E5, E6, !String.eqb_refl, !N.eqb_refl, !Bool.eqb_reflx. cbn [negb orb].
    assert (X : (comments && negb (String.eqb (c_desc c) (c_desc o)))%bool = false).
    { destruct comments; [|reflexivity]. now rewrite (E7 eq_refl), String.eqb_refl. }
    rewrite X. assert (Y : (negb (Bool.eqb (c_autoinc c) (c_autoinc o)) && c_autoinc c)%bool = false).
    { destruct (c_autoinc c); [now rewrite E8|now rewrite andb_false_r]. }
    rewrite Y. reflexivity.
Qed.

Lemma agrees_iff : forall (auto : column -> column -> Prop) (more : column -> Prop) comments old t,
  (forall c, more c -> c_pk c = false /\ c_uq c = false) -> NoDup (map c_name (t_cols old)) -> NoDup (map c_name (t_cols t)) ->
  (table_agrees (fun o c => as_before comments o c /\ auto o c) more comments old t <->
   (comments = true -> t_desc t = t_desc old) /\
   (forall c o, In c (t_cols t) -> column_name_map (t_cols old) (c_name c) = Some o -> quiet_column comments (c, o) /\ auto o c) /\
   (forall k, In k (map c_name (t_cols old)) -> In k (map c_name (t_cols t))) /\
   (forall k, In k (pk_name_set t) <-> In k (pk_name_set old)) /\ (forall k, In k (uq_name_set t) <-> In k (uq_name_set old)) /\
   (forall c, In c (t_cols t) -> ~ In (c_name c) (map c_name (t_cols old)) -> more c)).
Proof.
  intros auto more comments old t Hm D1 D2. unfold table_agrees, as_before, quiet_column. split.
  - intros (A & B & C). split; [exact A|].
    assert (SET : forall fl : column -> bool, (forall c, more c -> fl c = false) ->
      (forall o c, as_before comments o c -> fl c = fl o) -> forall k,
      (exists c, In c (t_cols t) /\ fl c = true /\ c_name c = k) <-> (exists c, In c (t_cols old) /\ fl c = true /\ c_name c = k)).
    { intros fl F1 F2 k. split; intros (c & Ic & Fc & <-).
      - destruct (C c Ic) as [(o & Io & Q & _)|[_ M]]; [|rewrite (F1 c M) in Fc; discriminate]. exists o. split; [assumption|].
        split; [now rewrite <- (F2 o c Q)|symmetry; apply Q].
      - destruct (B c Ic) as (c' & Ic' & Q & _). exists c'. split; [assumption|]. split; [now rewrite (F2 c c' Q)|apply Q]. }
    split; [|split; [|split; [|split]]].
    + intros c o Ic L. destruct (column_name_map_some _ _ _ L) as [Io En].
      destruct (C c Ic) as [(o' & Io' & Q & Au)|[N _]].
      * assert (o' = o) by (apply (nodup_name_eq c_name (t_cols old)); auto; rewrite En; symmetry; apply Q). subst o'. tauto.
      * exfalso. apply N. rewrite <- En. now apply in_map.
    + intros k H. apply in_map_iff in H as (o & <- & Io). destruct (B o Io) as (c & Ic & Q & _). destruct Q as (<- & _). now apply in_map.
    + intros k. rewrite !pk_name_set_in. apply SET; [intros c M; now apply Hm|unfold as_before; tauto].
    + intros k. rewrite !uq_name_set_in. apply SET; [intros c M; now apply Hm|unfold as_before; tauto].
    + intros c Ic N. destruct (C c Ic) as [(o & Io & Q & _)|[_ M]]; [|assumption]. exfalso. apply N. destruct Q as (-> & _). now apply in_map.
  - intros (A & B & C & K & U & M). split; [exact A|].
    assert (FL : forall fl : column -> bool, 
      (forall k, (exists c, In c (t_cols t) /\ fl c = true /\ c_name c = k) <-> (exists c, In c (t_cols old) /\ fl c = true /\ c_name c = k)) ->
      forall c o, In c (t_cols t) -> In o (t_cols old) -> c_name c = c_name o -> fl c = fl o).
    { intros fl H c o Ic Io E. destruct (fl c) eqn:Fc.
      - destruct (proj1 (H (c_name c))) as (o' & Io' & Fo & Eo); [eauto|]. assert (o' = o) by (apply (nodup_name_eq c_name (t_cols old)); auto; congruence).
        now subst.
      - destruct (fl o) eqn:Fo; [|reflexivity]. destruct (proj2 (H (c_name o))) as (c' & Ic' & Fc' & Ec); [eauto|].
        assert (c' = c) by (apply (nodup_name_eq c_name (t_cols t)); auto; congruence). congruence. }
    assert (K' : forall k, (exists c, In c (t_cols t) /\ c_pk c = true /\ c_name c = k) <-> (exists c, In c (t_cols old) /\ c_pk c = true /\ c_name c = k)).
    { intros k. rewrite <- !pk_name_set_in. apply K. }
    assert (U' : forall k, (exists c, In c (t_cols t) /\ c_uq c = true /\ c_name c = k) <-> (exists c, In c (t_cols old) /\ c_uq c = true /\ c_name c = k)).
    { intros k. rewrite <- !uq_name_set_in. apply U. }
    assert (S : forall c o, In c (t_cols t) -> In o (t_cols old) -> c_name c = c_name o -> as_before comments o c /\ auto o c).
    { intros c o Ic Io E. destruct (B c o Ic) as [Q Au]; [rewrite E; now apply column_name_map_nodup|].
      pose proof (FL c_pk K' c o Ic Io E). pose proof (FL c_uq U' c o Ic Io E). unfold as_before. tauto. }
    split.
    + intros o Io. assert (X := C (c_name o) (in_map c_name _ _ Io)). apply in_map_iff in X as (c & E & Ic). exists c. split; [assumption|now apply S].
    + intros c Ic. destruct (in_dec string_dec (c_name c) (map c_name (t_cols old))) as [I|N]; [left|right; split; auto].
      apply in_map_iff in I as (o & E & Io). exists o. split; [assumption|apply S; auto].
Qed.

Lemma sets_same : forall a b, NoDup a -> NoDup b -> (ss_equals a b = true <-> forall k, In k a <-> In k b).
Proof.
  intros a b A B. rewrite ss_equals_iff by assumption. split; intros H k; specialize (H k).
  - rewrite <- !ss_contains_iff, H. reflexivity.
  - apply eq_true_iff_eq. now rewrite !ss_contains_iff.
Qed.
Lemma slice_nil : forall s, ss_slice s = [] -> s = [].
Proof. intros [|n s] H; [reflexivity|]. assert (I : In n (ss_slice (n :: s))) by (apply (proj2 (ss_slice_in _ _)); now left). rewrite H in I. destruct I. Qed.
Lemma order_nil {A} (ord : list A -> list A) l : iteration_order ord -> ord l = [] -> l = [].
Proof. intros O E. apply Permutation_nil. rewrite <- E. apply O. Qed.

Lemma table_silent : forall author comments suffix ord t old, iteration_order ord -> NoDup (map c_name (t_cols old)) -> NoDup (map c_name (t_cols t)) ->
  (table_agrees (same_column comments) plain_more comments old t ->
     forall id, exists id', diff_table author comments suffix ord id t old = Some ([], id')) /\
  (forall id id', diff_table author comments suffix ord id t old = Some ([], id') -> table_agrees (same_column comments) plain_more comments old t).
Proof.
  intros author comments suffix ord t old O D1 D2.
  pose proof (agrees_iff (fun o c => c_autoinc c = c_autoinc o) plain_more comments old t (fun c H => H) D1 D2) as AG.
  change (fun o c => as_before comments o c /\ c_autoinc c = c_autoinc o) with (same_column comments) in AG. split.
  - intros H id. apply AG in H as (A & B & C & K & U & M). unfold diff_table.
    assert (X : (comments && negb (String.eqb (t_desc t) (t_desc old)))%bool = false).
    { destruct comments; [|reflexivity]. now rewrite (A eq_refl), String.eqb_refl. }
    rewrite X. cbn [emit].
    assert (SC : forall cs id removed, (forall i c, In (i, c) cs -> In c (t_cols t)) ->
      exists r added, scan_columns (fun id c o => Some (diff_column author comments t id c o)) (t_cols old) cs id removed = Some ([], id, r, added)).
    { clear - B. induction cs as [|[i c] cs IH]; intros id removed I; simpl; [eauto|].
      destruct (column_name_map (t_cols old) (c_name c)) as [o|] eqn:L.
      - destruct (B c o (I _ _ (or_introl eq_refl)) L) as [(E1 & E2 & E3 & E4 & E5 & E6 & E7) E8].
        assert (Q : diff_column author comments t id c o = ([], id)).
        { unfold diff_column. rewrite E1, E2, E3, E4, E5, E6, E8, !String.eqb_refl, !N.eqb_refl, !Bool.eqb_reflx. cbn [negb orb].
          destruct comments; cbn [andb]; [rewrite (E7 eq_refl), String.eqb_refl|]; reflexivity. }
        rewrite Q. destruct (IH id (ss_remove removed (c_name c))) as (r & added & ->); [intros; eapply I; right; eauto|]. cbn. eauto.
      - destruct (IH id removed) as (r & added & ->); [intros; eapply I; right; eauto|]. eauto. }
    destruct (SC (with_pos (t_cols t)) id (ss_new (map c_name (t_cols old)))) as (r & added & Es); [intros i c I; apply with_pos_in; eauto|].
    rewrite Es. apply scan_columns_spec in Es. destruct Es as [_ [_ [Kr _]]].
    assert (r = []).
    { destruct r as [|n r]; auto. exfalso. destruct (proj1 (Kr n)) as [Y Z]; [now left|]. apply Z.
      apply (proj1 (ss_new_in _ _)) in Y. split; auto. apply C in Y. rewrite <- (with_pos_snd (t_cols t)), map_map in Y. exact Y. }
    subst r.
    assert (FR : forall l, find_renamed (column_name_map (t_cols old)) (fun a r => is_renamed a r (negb comments)) l [] = ([], [])).
    { induction l as [|[i a] l IH]; [reflexivity|]. cbn. exact IH. }
    rewrite FR. rewrite (proj2 (sets_same _ _ (uq_name_set_nodup t) (uq_name_set_nodup old)) U), (proj2 (sets_same _ _ (pk_name_set_nodup t) (pk_name_set_nodup old)) K).
    assert (OO : ord [] = []) by (apply Permutation_nil; symmetry; apply O). cbn. rewrite OO. cbn.
    destruct (not_renamed added []); cbn; eauto.
  - intros id id' H. destruct (diff_table_changes _ _ _ _ _ _ _ _ _ H O) as (rem & ren & E & _ & (g & _ & PG & G) & _).
    cbv zeta in E. change (all_changes []) with (@nil change) in E. symmetry in E.
    apply app_eq_nil in E as [E1 E]. apply app_eq_nil in E as [E2 E]. apply app_eq_nil in E as [E3 E]. apply app_eq_nil in E as [E4 E].
    apply app_eq_nil in E as [E5 E]. apply app_eq_nil in E as [E6 E7].
    apply if_nil in E1, E3, E6, E7. apply map_eq_nil in E4, E5. apply slice_nil in E4. apply (order_nil _ _ O) in E5. subst rem ren.
    cbn in PG. apply Permutation_sym, Permutation_nil in PG. subst g. apply negb_false_iff in E6.
    assert (U : forall k, In k (uq_name_set t) <-> In k (uq_name_set old)).
    { apply (sets_same _ _ (uq_name_set_nodup t) (uq_name_set_nodup old)).
      destruct (ss_equals (uq_name_set t) (uq_name_set old)) eqn:Eu; [reflexivity|]. cbn in E3, E7.
      destruct (uq_name_set t); [|discriminate]. destruct (uq_name_set old); [|discriminate]. discriminate Eu. }
    assert (K := proj1 (sets_same _ _ (pk_name_set_nodup t) (pk_name_set_nodup old)) E6).
    apply AG. split; [|split; [|split; [|split; [exact K|split; [exact U|]]]]].
    + intros ->. cbn in E1. now apply eqb_same in E1.
    + intros c o Ic L. apply (column_quiet comments t c o).
      assert (I : In (c, o) (kept_cols (t_cols old) (with_pos (t_cols t)))).
      { apply kept_cols_spec; [now rewrite with_pos_snd|]. now rewrite with_pos_snd. }
      revert E2 I. generalize (kept_cols (t_cols old) (with_pos (t_cols t))). clear. intros l. induction l as [|p l IH]; [intros _ []|].
      cbn [flat_map]. intros E I. apply app_eq_nil in E as [E1 E2]. destruct I as [->|I]; auto.
    + intros k Ik. destruct (in_dec string_dec k (map c_name (t_cols t))) as [I|N]; [assumption|]. exfalso. now apply (proj2 (G k)).
    + intros c Ic N. split.
      * destruct (c_pk c) eqn:F; [|reflexivity]. exfalso. assert (X : In (c_name c) (pk_name_set t)) by (apply pk_name_set_in; eauto).
        apply K in X. apply pk_name_set_in in X as (o & Io & _ & Eo). apply N. rewrite <- Eo. now apply in_map.
      * destruct (c_uq c) eqn:F; [|reflexivity]. exfalso. assert (X : In (c_name c) (uq_name_set t)) by (apply uq_name_set_in; eauto).
        apply U in X. apply uq_name_set_in in X as (o & Io & _ & Eo). apply N. rewrite <- Eo. now apply in_map.
Qed.

Lemma lq_diff_column_quiet : forall fk author comments t id c o, quiet_column comments (c, o) -> (c_autoinc c = true -> c_autoinc o = true) ->
  lq_diff_column fk author comments t id c o = Some ([], id).
Proof.
  intros fk author comments t id c o (E1 & E2 & E3 & E4 & E5 & E6 & E7) E8. unfold lq_diff_column.
  rewrite E1, E2, E3, E4, E5, E6, !String.eqb_refl, !N.eqb_refl, !Bool.eqb_reflx. cbn [negb orb].
  assert (X : (comments && negb (String.eqb (c_desc c) (c_desc o)))%bool = false).
  { destruct comments; [|reflexivity]. now rewrite (E7 eq_refl), String.eqb_refl. }
  rewrite X. assert (Y : (negb (Bool.eqb (c_autoinc c) (c_autoinc o)) && c_autoinc c)%bool = false).
  { destruct (c_autoinc c); [now rewrite E8|now rewrite andb_false_r]. }
  rewrite Y. reflexivity.
Qed.
Lemma lq_table_silent : forall fk author comments suffix ord t old, iteration_order ord -> NoDup (map c_name (t_cols old)) -> NoDup (map c_name (t_cols t)) ->
  (table_agrees (log_alike comments) (fun _ => False) comments old t ->
     forall id, exists id', lq_diff_table fk author comments suffix ord id t old = Some ([], id')) /\
  (forall id id', lq_diff_table fk author comments suffix ord id t old = Some ([], id') -> table_agrees (log_alike comments) (fun _ => False) comments old t).
Proof.
  intros fk author comments suffix ord t old O D1 D2.
  pose proof (agrees_iff (fun o c => c_autoinc c = true -> c_autoinc o = true) (fun _ => False) comments old t (fun c H => match H with end) D1 D2) as AG.
  change (fun o c => as_before comments o c /\ (c_autoinc c = true -> c_autoinc o = true)) with (log_alike comments) in AG. split.
  - intros H id. apply AG in H as (A & B & C & K & U & M). unfold lq_diff_table.
    assert (X : (comments && negb (String.eqb (t_desc t) (t_desc old)))%bool = false).
    { destruct comments; [|reflexivity]. now rewrite (A eq_refl), String.eqb_refl. }
    rewrite X. simpl (lq_emit _ false _ _ _).
    destruct (scan_columns_nothing (lq_diff_column fk author comments t) (t_cols old) (with_pos (t_cols t)) id (ss_new (map c_name (t_cols old)))) as [r Es].
    { intros i c Hc. assert (Ic : In c (t_cols t)) by (apply with_pos_in; eauto).
      destruct (column_name_map (t_cols old) (c_name c)) as [o|] eqn:L.
      - exists o. split; [reflexivity|]. intros id0. destruct (B c o Ic L). now apply lq_diff_column_quiet.
      - exfalso. apply column_name_map_none in L. exact (M c Ic L). }
    rewrite Es. apply scan_columns_spec in Es. destruct Es as [_ [_ [Kr _]]].
    assert (r = []).
    { destruct r as [|n r]; auto. exfalso. destruct (proj1 (Kr n)) as [Y Z]; [now left|]. apply Z.
      apply (proj1 (ss_new_in _ _)) in Y. split; auto. apply C in Y. rewrite <- (with_pos_snd (t_cols t)), map_map in Y. exact Y. }
    subst r. simpl.
    rewrite (proj2 (sets_same _ _ (uq_name_set_nodup t) (uq_name_set_nodup old)) U), (proj2 (sets_same _ _ (pk_name_set_nodup t) (pk_name_set_nodup old)) K).
    assert (OO : ord [] = []) by (apply Permutation_nil; symmetry; apply O). cbn. rewrite OO. cbn. eauto.
  - intros id id' H. destruct (lq_diff_table_changes _ _ _ _ _ _ _ _ _ _ H O) as (lcol & rem & ren & adds & E & _ & F & AL & _ & (g & _ & PG & G) & _).
    cbv zeta in E. change (lq_all []) with (@nil lq_change) in E. symmetry in E.
    apply app_eq_nil in E as [E1 E]. apply app_eq_nil in E as [E2 E]. apply app_eq_nil in E as [E3 E]. apply app_eq_nil in E as [E4 E].
    apply app_eq_nil in E as [E5 E]. apply app_eq_nil in E as [E6 E]. apply app_eq_nil in E as [E7 E8].
    apply if_nil in E1, E3. apply map_eq_nil in E4. apply slice_nil in E4. subst rem.
    assert (ren = []).
    { apply (order_nil _ _ O). destruct (ord ren) as [|p l]; [reflexivity|]. discriminate E5. }
    subst ren. cbn in PG. apply Permutation_sym, Permutation_nil in PG. subst g. apply negb_false_iff in E3.
    assert (U := proj1 (sets_same _ _ (uq_name_set_nodup t) (uq_name_set_nodup old)) E3).
    assert (K : forall k, In k (pk_name_set t) <-> In k (pk_name_set old)).
    { apply (sets_same _ _ (pk_name_set_nodup t) (pk_name_set_nodup old)).
      destruct (ss_equals (pk_name_set t) (pk_name_set old)) eqn:Eu; [reflexivity|]. cbn [negb] in E7. apply app_eq_nil in E7 as [X Y].
      destruct (pk_name_set t); [|discriminate]. destruct (pk_name_set old); [|discriminate]. discriminate Eu. }
    apply AG. split; [|split; [|split; [|split; [exact K|split; [exact U|]]]]].
    + intros ->. cbn in E1. now apply eqb_same in E1.
    + intros c o Ic L. apply (lq_column_quiet fk comments t c o).
      assert (I : In (c, o) (kept_cols (t_cols old) (with_pos (t_cols t)))).
      { apply kept_cols_spec; [now rewrite with_pos_snd|]. now rewrite with_pos_snd. }
      revert E2 I. clear - F. induction F as [|p x ps xs H F IH]; [intros _ []|].
      cbn [concat]. intros E I. apply app_eq_nil in E as [-> E2]. destruct I as [->|I]; auto.
    + intros k Ik. destruct (in_dec string_dec k (map c_name (t_cols t))) as [I|N]; [assumption|]. exfalso. now apply (proj2 (G k)).
    + intros c Ic N. destruct (proj1 (with_pos_in _ _) Ic) as [i Hi].
      assert (X : In (i, c) (filter (fun ia => negb (existsb (fun r : nat * (column * column) => Nat.eqb (fst ia) (fst r)) [])) (filter (is_added_col (t_cols old)) (with_pos (t_cols t))))).
      { apply filter_In. split; [|reflexivity]. apply filter_In. split; [assumption|]. unfold is_added_col. cbn [snd].
        apply negb_true_iff. apply not_true_iff_false. intros Q. now apply str_in_iff in Q. }
      destruct (filter _ (filter _ _)) as [|y l]; [destruct X|discriminate E6].
Qed.

(** ** Schemas *)
Lemma report_silent : forall ordT ordC o from to, iteration_order ordT -> (forall i, iteration_order (ordC i)) ->
  distinct_names from -> distinct_names to ->
  (get_diff ordT ordC o from to = Some [] <-> agree_by (same_column (do_comments o)) plain_more (do_comments o) (do_filter o) from to).
Proof.
  intros ordT ordC o from to OT OC [D1 D2] [D3 D4]. unfold get_diff, agree_by. apply silent; try assumption.
  - intros id a b id' H. apply (f_equal fst) in H. unfold rename_table_cs, emit in H.
    destruct (Nat.ltb 0 (ss_size (uq_name_set b))), (Nat.ltb 0 (ss_size (uq_name_set a))); discriminate H.
  - discriminate.
  - intros i t old It Io. apply table_silent; auto.
Qed.
Lemma log_silent : forall fk ordT ordC o from to, iteration_order ordT -> (forall i, iteration_order (ordC i)) ->
  distinct_names from -> distinct_names to ->
  (lq_diff fk ordT ordC o from to = Some [] <-> agree_by (log_alike (lo_comments o)) (fun _ => False) (lo_comments o) (lo_filter o) from to).
Proof.
  intros fk ordT ordC o from to OT OC [D1 D2] [D3 D4]. unfold lq_diff, agree_by. apply silent; try assumption.
  - intros id a b id' H. apply (f_equal fst) in H. unfold lq_rename_table, lq_emit in H.
    destruct (Nat.ltb 0 (ss_size (uq_name_set b))), (Nat.ltb 0 (ss_size (uq_name_set a))); discriminate H.
  - intros id t id' H. unfold new_create_table_cs in H.
    destruct (map_lq_columns _ _ _ _ _); [|discriminate]. unfold lq_emit in H.
    destruct (Nat.leb 2 (ss_size (pk_name_set t))), (Nat.leb 1 (ss_size (uq_name_set t))); discriminate H.
  - intros i t old It Io. apply lq_table_silent; auto.
Qed.

Lemma agree_weaker : forall (alike alike' : column -> column -> Prop) (more more' : column -> Prop) comments f from to,
  (forall o c, alike o c -> alike' o c) -> (forall c, more c -> more' c) ->
  agree_by alike more comments f from to -> agree_by alike' more' comments f from to.
Proof.
  intros alike alike' more more' comments f from to H1 H2 [A B]. split; [exact A|]. intros t It Is.
  destruct (B t It Is) as (old & Io & En & C & D & E). exists old. split; [assumption|]. split; [assumption|]. split; [assumption|]. split.
  - intros o I. destruct (D o I) as (c & Ic & Q). eauto.
  - intros c I. destruct (E c I) as [(o & I' & Q)|[N M]]; [left; eauto|right; auto].
Qed.
Lemma both_silent : forall fk ordT ordC ordT' ordC' o lo from to,
  iteration_order ordT -> (forall i, iteration_order (ordC i)) -> iteration_order ordT' -> (forall i, iteration_order (ordC' i)) ->
  distinct_names from -> distinct_names to -> lo_comments lo = do_comments o -> lo_filter lo = do_filter o ->
  (get_diff ordT ordC o from to = Some [] /\ lq_diff fk ordT' ordC' lo from to = Some [] <-> agree (do_comments o) (do_filter o) from to).
Proof.
  intros fk ordT ordC ordT' ordC' o lo from to OT OC OT' OC' Df Dt EC EF.
  rewrite report_silent, log_silent, EC, EF by assumption. unfold agree. split.
  - intros [[A B] [_ B']]. split; [exact A|]. intros t It Is. destruct (B t It Is) as (old & Io & En & C & D & E).
    destruct (B' t It Is) as (old' & Io' & En' & _ & _ & E'). assert (old' = old).
    { apply (nodup_name_eq t_name (s_tables from)); [apply Df|assumption|assumption|congruence]. }
    subst old'. exists old. split; [assumption|]. split; [assumption|]. split; [assumption|]. split; [assumption|].
    intros c Ic. destruct (E c Ic) as [Q|[N _]]; [now left|]. destruct (E' c Ic) as [(x & Ix & Q & _)|[_ M]]; [|destruct M].
    exfalso. apply N. destruct Q as (-> & _). now apply in_map.
  - intros H. split.
    + revert H. apply agree_weaker; [auto|intros c []].
    + revert H. apply agree_weaker; [|auto]. intros x c [Q E]. split; [exact Q|congruence].
Qed.
Lemma agree_report : forall ordT ordC o from to, iteration_order ordT -> (forall i, iteration_order (ordC i)) ->
  distinct_names from -> distinct_names to -> agree (do_comments o) (do_filter o) from to -> get_diff ordT ordC o from to = Some [].
Proof. intros. apply report_silent; auto. revert H3. apply agree_weaker; [auto|intros c []]. Qed.
Lemma agree_log : forall fk ordT ordC o from to, iteration_order ordT -> (forall i, iteration_order (ordC i)) ->
  distinct_names from -> distinct_names to -> agree (lo_comments o) (lo_filter o) from to -> lq_diff fk ordT ordC o from to = Some [].
Proof. intros. apply log_silent; auto. revert H3. apply agree_weaker; [|auto]. intros x c [Q E]. split; [exact Q|congruence]. Qed.
