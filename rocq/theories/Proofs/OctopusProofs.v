(** Normalize, LoadSchema, lookups, groups, filter *)
From Coq Require Import String Ascii List NArith Bool Lia Sorting.Permutation Sorting.Sorted Arith.
From Verif.Model Require Import GoString Util Octopus Json.
From Verif.Spec Require Import Order Text OctopusSpec.
From Verif.Proofs Require Import ListLemmas StringLemmas UtilProofs TypeProofs.
Import ListNotations.
Local Open Scope string_scope.

(** * Normalize *)
Lemma autoinc_types : forall t, In t octopus_types ->
  (is_col_type_autoinc t = true <-> In t integer_types).
Proof.
  intros t H. unfold is_col_type_autoinc, contains_col_type. rewrite (octopus_lower t H), str_in_iff.
  unfold integer_types, sized. simpl. tauto.
Qed.

Lemma autoinc_only_valid : forall t, is_col_type_autoinc t = true -> to_lower t = t -> In t integer_types.
Proof.
  intros t. unfold is_col_type_autoinc, contains_col_type. rewrite str_in_iff. intros H E. rewrite E in H.
  unfold integer_types, sized. simpl in *. tauto.
Qed.

Lemma norm_lower : forall t, to_lower (norm t) = norm t.
Proof.
  intros. destruct (proj2 (canonical_norm t (norm t)) eq_refl) as [H|[H E]].
  - apply alias_target_valid in H. now apply octopus_lower.
  - rewrite E. apply to_lower_idem.
Qed.

Lemma autoinc_norm : forall t, is_col_type_autoinc (norm t) = true <-> In (norm t) integer_types.
Proof.
  intros. split; intros H.
  - apply autoinc_only_valid; auto. apply norm_lower.
  - apply autoinc_types; auto. unfold octopus_types. apply in_or_app. now left.
Qed.

(** the column that Validate(true) leaves behind after NormalizeType *)
Lemma validate_repaired : forall c, c_name c <> "" ->
  column_repaired c (fst (validate true (normalize_type c))).
Proof.
  intros c Hn. unfold validate. apply String.eqb_neq in Hn.
  unfold normalize_type. cbn [c_name with_type c_autoinc c_type c_values]. rewrite Hn.
  fold (norm (c_type c)). rewrite andb_false_r. cbv iota.
  assert (R : column_repaired c
     (if c_autoinc c && negb (is_col_type_autoinc (norm (c_type c)))
      then with_autoinc (with_type c (norm (c_type c))) false else with_type c (norm (c_type c)))).
  { unfold column_repaired. pose proof (autoinc_norm (c_type c)) as A.
    destruct (c_autoinc c) eqn:Ea; destruct (is_col_type_autoinc (norm (c_type c))) eqn:Eb;
      cbn [negb andb c_type c_autoinc with_autoinc with_type c_name c_desc c_size c_scale c_notnull c_pk c_uq
           c_default c_onupdate c_values c_ref];
      (split; [apply canonical_norm; reflexivity|]); (split; [|repeat split]); rewrite ?Ea;
      clear -A; intuition congruence. }
  repeat match goal with |- context [if ?b then (_, Some _) else _] => destruct b end; exact R.
Qed.

Definition valid_dec_spec (c : column) : Prop :=
  c_name c <> "" /\ In (c_type c) octopus_types /\
  (c_type c = "enum" -> c_values c <> []) /\
  (c_type c = "set" -> 1 <= length (c_values c) <= 64).

Lemma validate_error : forall c,
  snd (validate true (normalize_type c)) = None <->
  (c_name c <> "" /\ In (norm (c_type c)) octopus_types /\
   (norm (c_type c) = "enum" -> c_values c <> []) /\
   (norm (c_type c) = "set" -> 1 <= length (c_values c) <= 64)).
Proof.
  intros c. unfold validate, normalize_type. cbn [c_name with_type c_autoinc c_type c_values].
  fold (norm (c_type c)). rewrite andb_false_r. cbv iota.
  destruct (String.eqb_spec (c_name c) "") as [E|E]; [simpl; split; [discriminate|tauto]|].
  assert (V : forall b : bool, c_values (if b then with_autoinc (with_type c (norm (c_type c))) false else with_type c (norm (c_type c))) = c_values c)
    by (destruct b; reflexivity).
  assert (T : forall b : bool, c_type (if b then with_autoinc (with_type c (norm (c_type c))) false else with_type c (norm (c_type c))) = norm (c_type c))
    by (destruct b; reflexivity).
  rewrite V, T.
  rewrite <- octopus_types_valid.
  destruct (String.eqb_spec (norm (c_type c)) "set") as [Es|Es]; simpl.
  - rewrite Es. change (String.eqb "set" "enum") with false. simpl.
    destruct (Nat.leb (length (c_values c)) 0) eqn:L1; simpl.
    + apply Nat.leb_le in L1. split; [discriminate|]. intros [_ [_ [_ H]]]. specialize (H eq_refl). lia.
    + apply Nat.leb_gt in L1. destruct (Nat.ltb 64 (length (c_values c))) eqn:L2; simpl.
      * apply Nat.ltb_lt in L2. split; [discriminate|]. intros [_ [_ [_ H]]]. specialize (H eq_refl). lia.
      * apply Nat.ltb_ge in L2. split; auto. intros _. repeat split; auto; try discriminate; lia.
  - destruct (String.eqb_spec (norm (c_type c)) "enum") as [Ee|Ee]; simpl.
    + rewrite Ee. destruct (c_values c) eqn:Ev; simpl.
      * split; [discriminate|]. intros [_ [_ [H _]]]. exfalso. now apply H.
      * split; auto. intros _. repeat split; auto; try discriminate. 
    + destruct (is_valid_col_type (norm (c_type c))) eqn:Ev; simpl.
      * split; auto. intros _. repeat split; auto; congruence.
      * split; [discriminate|]. intros [_ [H _]]. discriminate.
Qed.

Lemma validate_valid : forall c, snd (validate true (normalize_type c)) = None ->
  valid_column (fst (validate true (normalize_type c))).
Proof.
  intros c H. assert (H' := H). apply validate_error in H. destruct H as [H1 [H2 [H3 H4]]].
  pose proof (validate_repaired c H1) as R. revert R. generalize (fst (validate true (normalize_type c))).
  intros c' [R1 [R2 [R3 [R4 [R5 [R6 [R7 [R8 [R9 [R10 [R11 [R12 R13]]]]]]]]]]]].
  apply canonical_norm in R1. unfold valid_column. rewrite R3, R12, R1 in *.
  repeat split; auto; try (apply H4; auto). intros A. now apply R2 in A.
Qed.

Lemma repaired_unique : forall c c1 c2, column_repaired c c1 -> column_repaired c c2 -> c1 = c2.
Proof.
  intros c c1 c2 [A1 [A2 A3]] [B1 [B2 B3]]. apply canonical_norm in A1, B1.
  destruct c1, c2; simpl in *.
  destruct A3 as [? [? [? [? [? [? [? [? [? [? ?]]]]]]]]]].
  destruct B3 as [? [? [? [? [? [? [? [? [? [? ?]]]]]]]]]]. subst.
  f_equal. apply Bool.eq_iff_eq_true. tauto.
Qed.

Lemma repairable_iff : forall c, repairable c <-> snd (validate true (normalize_type c)) = None.
Proof.
  intros c. split.
  - intros [c' [R V]]. apply validate_error.
    destruct V as [V1 [V2 [V3 [V4 V5]]]].
    destruct R as [R1 [R2 [R3 [R4 [R5 [R6 [R7 [R8 [R9 [R10 [R11 [R12 R13]]]]]]]]]]]].
    apply canonical_norm in R1. rewrite R3, R12, R1 in *. auto.
  - intros H. exists (fst (validate true (normalize_type c))). split; [|now apply validate_valid].
    apply validate_repaired. now apply validate_error in H.
Qed.

Lemma validate_fixed : forall c, valid_column c -> validate true (normalize_type c) = (c, None).
Proof.
  intros c V. assert (R : column_repaired c c).
  { destruct V as [V1 [V2 [V3 [V4 V5]]]]. unfold column_repaired.
    split; [apply canonical_norm; symmetry; now apply norm_valid_fixed|].
    split; [tauto|]. repeat split. }
  assert (E : snd (validate true (normalize_type c)) = None) by (apply repairable_iff; exists c; auto).
  destruct (validate true (normalize_type c)) as [c' e] eqn:Ev. simpl in E. subst. f_equal.
  apply (repaired_unique c); auto. replace c' with (fst (validate true (normalize_type c))) by now rewrite Ev.
  apply validate_repaired. apply V.
Qed.

Lemma normalize_cols_ok : forall cs cs', normalize_cols cs = (cs', None) ->
  Forall2 column_repaired cs cs' /\ Forall valid_column cs'.
Proof.
  induction cs; simpl; intros cs' H.
  - inversion H. split; constructor.
  - destruct (validate true (normalize_type a)) as [a' [e|]] eqn:E; [discriminate|].
    destruct (normalize_cols cs) as [r e]. inversion H; subst.
    destruct (IHcs _ eq_refl).
    assert (N : snd (validate true (normalize_type a)) = None) by now rewrite E.
    assert (F : fst (validate true (normalize_type a)) = a') by now rewrite E.
    split; constructor; auto.
    + rewrite <- F. apply validate_repaired. now apply validate_error in N.
    + rewrite <- F. now apply validate_valid.
Qed.

Lemma normalize_cols_err : forall cs,
  snd (normalize_cols cs) = None <-> forall c, In c cs -> repairable c.
Proof.
  induction cs; simpl.
  - split; [intros _ c []|auto].
  - pose proof (repairable_iff a) as Ra.
    destruct (validate true (normalize_type a)) as [a' [e|]] eqn:E; simpl in *.
    + split; [discriminate|]. intros H. apply Ra. auto.
    + destruct (normalize_cols cs) as [r e]. simpl in *. rewrite IHcs. split.
      * intros H c [<-|]; [now apply Ra|auto].
      * auto.
Qed.

Lemma normalize_cols_fixed : forall cs, Forall valid_column cs -> normalize_cols cs = (cs, None).
Proof.
  induction 1; simpl; auto. rewrite validate_fixed by auto. now rewrite IHForall.
Qed.

Lemma normalize_tables_ok : forall ts ts', normalize_tables ts = (ts', None) ->
  Forall2 table_repaired ts ts' /\ Forall (fun t => Forall valid_column (t_cols t)) ts'.
Proof.
  induction ts; simpl; intros ts' H.
  - inversion H. split; constructor.
  - destruct (normalize_cols (t_cols a)) as [cs [e|]] eqn:E; [discriminate|].
    destruct (normalize_tables ts) as [r e]. inversion H; subst.
    destruct (IHts _ eq_refl). apply normalize_cols_ok in E. destruct E.
    split; constructor; auto. unfold table_repaired. simpl. repeat split; auto.
Qed.

Lemma normalize_tables_err : forall ts,
  snd (normalize_tables ts) = None <-> forall c, In c (flat_map t_cols ts) -> repairable c.
Proof.
  induction ts; simpl.
  - split; [intros _ c []|auto].
  - pose proof (normalize_cols_err (t_cols a)) as Ra.
    destruct (normalize_cols (t_cols a)) as [cs [e|]] eqn:E; simpl in *.
    + split; [discriminate|]. intros H. exfalso.
      assert (Some e = None) by (apply Ra; intros; apply H; apply in_or_app; auto). discriminate.
    + destruct (normalize_tables ts) as [r e]. simpl in *. rewrite IHts. split.
      * intros H c Hc. apply in_app_or in Hc. destruct Hc; [now apply Ra|auto].
      * intros H c Hc. apply H. apply in_or_app. auto.
Qed.

Lemma with_cols_same : forall t, with_cols t (t_cols t) = t.
Proof. destruct t; reflexivity. Qed.

Lemma normalize_tables_fixed : forall ts, Forall (fun t => Forall valid_column (t_cols t)) ts ->
  normalize_tables ts = (ts, None).
Proof.
  induction 1; simpl; auto. rewrite normalize_cols_fixed by auto. rewrite IHForall.
  now rewrite with_cols_same.
Qed.

Lemma table_less_le : forall a b, table_less b a = false <-> table_le a b.
Proof.
  intros. unfold table_less, table_le.
  destruct (str_ltb (t_group b) (t_group a)) eqn:E1.
  - apply str_ltb_lt in E1. split; [discriminate|]. intros [H|[H _]].
    + exfalso. apply (bytes_lt_irrefl (t_group a)). eapply bytes_lt_trans; eauto.
    + rewrite H in E1. now apply bytes_lt_irrefl in E1.
  - destruct (String.eqb_spec (t_group b) (t_group a)) as [E2|E2].
    + destruct (str_ltb (t_name b) (t_name a)) eqn:E3.
      * apply str_ltb_lt in E3. split; [discriminate|]. intros [H|[_ [H|H]]].
        -- rewrite E2 in H. now apply bytes_lt_irrefl in H.
        -- rewrite H in E3. now apply bytes_lt_irrefl in E3.
        -- exfalso. apply (bytes_lt_irrefl (t_name a)). eapply bytes_lt_trans; eauto.
      * split; auto. intros _. right. split; auto.
        destruct (bytes_lt_total (t_name a) (t_name b)) as [H|[H|H]]; auto.
        apply str_ltb_lt in H. congruence.
    + split; auto. intros _. left.
      destruct (bytes_lt_total (t_group a) (t_group b)) as [H|[H|H]]; auto.
      * congruence.
      * apply str_ltb_lt in H. congruence.
Qed.

Lemma table_le_trans : forall a b c, table_le a b -> table_le b c -> table_le a c.
Proof.
  unfold table_le. intros a b c [H1|[H1 H2]] [H3|[H3 H4]].
  - left. eapply bytes_lt_trans; eauto.
  - left. now rewrite <- H3.
  - left. now rewrite H1.
  - right. split; [congruence|]. destruct H2 as [H2|H2], H4 as [H4|H4].
    + left. congruence.
    + right. now rewrite H2.
    + right. now rewrite <- H4.
    + right. eapply bytes_lt_trans; eauto.
Qed.

Lemma sorted_strong : forall l, Sorted (fun a b => table_less b a = false) l -> StronglySorted table_le l.
Proof.
  intros l H. apply Sorted_StronglySorted.
  - intros a b c. apply table_le_trans.
  - induction H; constructor; auto. inversion H0; constructor. now apply table_less_le.
Qed.

Lemma repaired_sorted : forall ts ts', Forall2 table_repaired ts ts' ->
  StronglySorted table_le ts -> StronglySorted table_le ts'.
Proof.
  intros ts ts' H. induction H; intros S; constructor.
  - apply IHForall2. now apply StronglySorted_inv in S.
  - apply StronglySorted_inv in S. destruct S as [_ F].
    clear IHForall2. induction H0; constructor.
    + inversion F; subst. unfold table_le in *.
      destruct H as [_ [E1 [_ [E2 _]]]]. destruct H0 as [_ [E3 [_ [E4 _]]]].
      now rewrite E1, E2, E3, E4.
    + apply IHForall2. now inversion F.
Qed.

Lemma normalize_ok : forall sortf s s', sorts_tables sortf -> normalize sortf s = (s', None) ->
  (exists ts, Permutation ts (s_tables s) /\ Forall2 table_repaired ts (s_tables s')) /\
  StronglySorted table_le (s_tables s') /\
  valid_schema s' /\
  s_author s' = s_author s /\ s_name s' = s_name s /\ s_version s' = s_version s.
Proof.
  intros sortf s s' Hs H. unfold normalize in H.
  destruct (normalize_tables (sortf (s_tables s))) as [ts e] eqn:E. inversion H; subst. clear H.
  destruct (Hs (s_tables s)) as [P S]. destruct (normalize_tables_ok _ _ E) as [F V]. simpl.
  split; [exists (sortf (s_tables s)); auto|].
  split; [eapply repaired_sorted; eauto; now apply sorted_strong|].
  split; auto.
  unfold valid_schema, columns_of. simpl. intros c Hc. apply in_flat_map in Hc. destruct Hc as [t [H1 H2]].
  rewrite Forall_forall in V. specialize (V t H1). rewrite Forall_forall in V. auto.
Qed.

Lemma flat_map_perm : forall {A B} (f : A -> list B) l l' x,
  Permutation l l' -> In x (flat_map f l) -> In x (flat_map f l').
Proof.
  intros. apply in_flat_map in H0. destruct H0 as [y [H1 H2]]. apply in_flat_map. exists y. split; auto.
  eapply Permutation_in; eauto.
Qed.

Lemma normalize_error : forall sortf s, sorts_tables sortf ->
  (snd (normalize sortf s) = None <-> forall c, In c (columns_of s) -> repairable c).
Proof.
  intros sortf s Hs. unfold normalize. pose proof (normalize_tables_err (sortf (s_tables s))) as N.
  destruct (normalize_tables (sortf (s_tables s))) as [ts e]. simpl in *. rewrite N.
  destruct (Hs (s_tables s)) as [P _]. unfold columns_of.
  split; intros H c Hc; apply H.
  - exact (flat_map_perm _ _ _ _ (Permutation_sym P) Hc).
  - exact (flat_map_perm _ _ _ _ P Hc).
Qed.

Lemma table_le_antisym : forall a b, table_le a b -> table_le b a -> (t_group a, t_name a) = (t_group b, t_name b).
Proof.
  unfold table_le. intros a b [H1|[H1 H2]] [H3|[H3 H4]].
  - exfalso. apply (bytes_lt_irrefl (t_group a)). eapply bytes_lt_trans; eauto.
  - rewrite H3 in H1. now apply bytes_lt_irrefl in H1.
  - rewrite H1 in H3. now apply bytes_lt_irrefl in H3.
  - f_equal; auto. destruct H2 as [|H2]; auto. destruct H4 as [|H4]; auto.
    exfalso. apply (bytes_lt_irrefl (t_name a)). eapply bytes_lt_trans; eauto.
Qed.

Lemma sorted_perm_unique : forall l1 l2,
  Permutation l1 l2 -> StronglySorted table_le l1 -> StronglySorted table_le l2 ->
  NoDup (map (fun t => (t_group t, t_name t)) l1) -> l1 = l2.
Proof.
  induction l1 as [|a l1 IH]; intros l2 P S1 S2 Nd.
  - apply Permutation_nil in P. congruence.
  - destruct l2 as [|b l2]; [symmetry in P; apply Permutation_nil in P; discriminate|].
    apply StronglySorted_inv in S1. destruct S1 as [S1 F1].
    apply StronglySorted_inv in S2. destruct S2 as [S2 F2].
    rewrite Forall_forall in F1, F2. simpl in Nd. apply NoDup_cons_iff in Nd. destruct Nd as [Nn Nd].
    assert (a = b).
    { assert (Ha : In a (b :: l2)) by (eapply Permutation_in; [exact P|now left]).
      assert (Hb : In b (a :: l1)) by (eapply Permutation_in; [symmetry; exact P|now left]).
      destruct Ha as [|Ha]; auto. destruct Hb as [|Hb]; auto.
      exfalso. apply Nn. rewrite (table_le_antisym a b (F1 b Hb) (F2 a Ha)).
      apply (in_map (fun t => (t_group t, t_name t))). exact Hb. }
    subst. f_equal. apply IH; auto. now apply Permutation_cons_inv in P.
Qed.

Lemma repaired_keys : forall ts ts', Forall2 table_repaired ts ts' ->
  map (fun t => (t_group t, t_name t)) ts' = map (fun t => (t_group t, t_name t)) ts.
Proof.
  induction 1; simpl; auto. destruct H as [_ [E1 [_ [E2 _]]]]. now rewrite E1, E2, IHForall2.
Qed.

Lemma normalize_again : forall sortf sortf' s s', sorts_tables sortf -> sorts_tables sortf' ->
  normalize sortf s = (s', None) ->
  (exists ts, normalize sortf' s' = (with_tables s' ts, None) /\ Permutation ts (s_tables s')) /\
  (distinct_table_keys s -> normalize sortf' s' = (s', None)).
Proof.
  intros sortf sortf' s s' Hs Hs' H.
  destruct (normalize_ok _ _ _ Hs H) as [[ts [P F]] [S [V _]]].
  destruct (Hs' (s_tables s')) as [P' S'].
  assert (E : normalize sortf' s' = (with_tables s' (sortf' (s_tables s')), None)).
  { unfold normalize. rewrite normalize_tables_fixed; auto.
    rewrite Forall_forall. intros t Ht. rewrite Forall_forall. intros c Hc. apply V.
    unfold columns_of. apply in_flat_map. exists t. split; auto. eapply Permutation_in; eauto. }
  split; [exists (sortf' (s_tables s')); auto|].
  intros D. rewrite E. f_equal.
  assert (X : sortf' (s_tables s') = s_tables s').
  { apply sorted_perm_unique; auto.
    - now apply sorted_strong.
    - eapply Permutation_NoDup; [apply Permutation_map; symmetry; exact P'|].
      rewrite (repaired_keys _ _ F). eapply Permutation_NoDup; [apply Permutation_map; symmetry; exact P|].
      exact D. }
  rewrite X. destruct s'; reflexivity.
Qed.

(** insertion sort is a legal sort *)
Lemma insert_table_perm : forall t l, Permutation (insert_table t l) (t :: l).
Proof.
  induction l; simpl; auto. destruct (table_less a t); auto. rewrite IHl. apply perm_swap.
Qed.

Lemma table_less_asym : forall a b, table_less a b = true -> table_less b a = false.
Proof.
  intros. apply table_less_le. unfold table_less in *.
  destruct (str_ltb (t_group a) (t_group b)) eqn:E1.
  - left. now apply str_ltb_lt.
  - destruct (String.eqb_spec (t_group a) (t_group b)); [|discriminate].
    right. split; auto. right. now apply str_ltb_lt.
Qed.

Lemma isort_sorts : sorts_tables isort_tables.
Proof.
  intros l. split.
  - induction l; simpl; auto. rewrite insert_table_perm. now constructor.
  - induction l; simpl; [constructor|].
    revert IHl. generalize (isort_tables l). induction 1; simpl.
    + constructor; constructor.
    + destruct (table_less a0 a) eqn:E.
      * constructor; auto. destruct l0; simpl; [constructor; now apply table_less_asym|].
        destruct (table_less t a) eqn:E2; constructor; [now inversion H|now apply table_less_asym].
      * constructor; [now constructor|]. now constructor.
Qed.

(** * LoadSchema *)
Lemma load_schema_valid : forall sortf ok j s0 s, sorts_tables sortf ->
  from_json j = Some s0 -> (forall c, In c (columns_of s0) -> repairable c) ->
  load_schema sortf ok j = Some s -> valid_schema s.
Proof.
  intros sortf ok j s0 s Hs H1 H2 H3. unfold load_schema in H3. destruct ok; [|discriminate].
  rewrite H1 in H3. simpl in H3. inversion H3; subst. unfold load_schema_decoded.
  apply (normalize_error sortf s0 Hs) in H2.
  destruct (normalize sortf s0) as [s' e] eqn:E. simpl in *. subst.
  now destruct (normalize_ok _ _ _ Hs E) as [_ [_ [V _]]].
Qed.

(** * Lookups *)
Lemma column_by_name_some : forall cs n c, column_by_name cs n = Some c -> In c cs /\ c_name c = n.
Proof.
  induction cs; simpl; intros; [discriminate|].
  destruct (String.eqb_spec (c_name a) n); [inversion H; subst; auto|].
  apply IHcs in H. tauto.
Qed.
Lemma column_by_name_none : forall cs n, column_by_name cs n = None <-> ~ In n (map c_name cs).
Proof.
  induction cs; simpl; intros; [tauto|].
  destruct (String.eqb_spec (c_name a) n); [split; [discriminate|tauto]|]. rewrite IHcs. tauto.
Qed.
Lemma column_name_map_some : forall cs n c, column_name_map cs n = Some c -> In c cs /\ c_name c = n.
Proof.
  induction cs; simpl; intros; [discriminate|].
  destruct (column_name_map cs n) eqn:E.
  - inversion H; subst. apply IHcs in E. tauto.
  - destruct (String.eqb_spec (c_name a) n); [inversion H; subst; auto|discriminate].
Qed.
Lemma column_name_map_none : forall cs n, column_name_map cs n = None <-> ~ In n (map c_name cs).
Proof.
  induction cs; simpl; intros; [tauto|].
  destruct (column_name_map cs n) eqn:E.
  - split; [discriminate|]. intros H. exfalso. apply H. right.
    apply column_name_map_some in E. destruct E as [E <-]. now apply in_map.
  - destruct (String.eqb_spec (c_name a) n); [split; [discriminate|tauto]|].
    rewrite IHcs in E. tauto.
Qed.
Lemma table_by_name_some : forall ts n t, table_by_name ts n = Some t -> In t ts /\ t_name t = n.
Proof.
  induction ts; simpl; intros; [discriminate|].
  destruct (String.eqb_spec (t_name a) n); [inversion H; subst; auto|].
  apply IHts in H. tauto.
Qed.
Lemma table_by_name_none : forall ts n, table_by_name ts n = None <-> ~ In n (map t_name ts).
Proof.
  induction ts; simpl; intros; [tauto|].
  destruct (String.eqb_spec (t_name a) n); [split; [discriminate|tauto]|]. rewrite IHts. tauto.
Qed.
Lemma tables_by_name_some : forall ts n t, tables_by_name ts n = Some t -> In t ts /\ t_name t = n.
Proof.
  induction ts; simpl; intros; [discriminate|].
  destruct (tables_by_name ts n) eqn:E.
  - inversion H; subst. apply IHts in E. tauto.
  - destruct (String.eqb_spec (t_name a) n); [inversion H; subst; auto|discriminate].
Qed.
Lemma tables_by_name_none : forall ts n, tables_by_name ts n = None <-> ~ In n (map t_name ts).
Proof.
  induction ts; simpl; intros; [tauto|].
  destruct (tables_by_name ts n) eqn:E.
  - split; [discriminate|]. intros H. exfalso. apply H. right.
    apply tables_by_name_some in E. destruct E as [E <-]. now apply in_map.
  - destruct (String.eqb_spec (t_name a) n); [split; [discriminate|tauto]|].
    rewrite IHts in E. tauto.
Qed.

Lemma nodup_name_eq : forall {A} (f : A -> string) l x y,
  NoDup (map f l) -> In x l -> In y l -> f x = f y -> x = y.
Proof.
  induction l; simpl; intros x y H Hx Hy E; [tauto|].
  inversion H; subst. destruct Hx as [->|Hx], Hy as [->|Hy]; auto.
  - exfalso. apply H2. rewrite E. now apply in_map.
  - exfalso. apply H2. rewrite <- E. now apply in_map.
Qed.

Lemma column_by_name_nodup : forall cs c, NoDup (map c_name cs) -> In c cs ->
  column_by_name cs (c_name c) = Some c.
Proof.
  intros. destruct (column_by_name cs (c_name c)) eqn:E.
  - apply column_by_name_some in E. f_equal. eapply (nodup_name_eq c_name); intuition eauto.
  - apply column_by_name_none in E. exfalso. apply E. now apply in_map.
Qed.
Lemma column_name_map_nodup : forall cs c, NoDup (map c_name cs) -> In c cs ->
  column_name_map cs (c_name c) = Some c.
Proof.
  intros. destruct (column_name_map cs (c_name c)) eqn:E.
  - apply column_name_map_some in E. f_equal. eapply (nodup_name_eq c_name); intuition eauto.
  - apply column_name_map_none in E. exfalso. apply E. now apply in_map.
Qed.
Lemma tables_by_name_nodup : forall ts t, NoDup (map t_name ts) -> In t ts ->
  tables_by_name ts (t_name t) = Some t.
Proof.
  intros. destruct (tables_by_name ts (t_name t)) eqn:E.
  - apply tables_by_name_some in E. f_equal. eapply (nodup_name_eq t_name); intuition eauto.
  - apply tables_by_name_none in E. exfalso. apply E. now apply in_map.
Qed.
Lemma table_by_name_nodup : forall ts t, NoDup (map t_name ts) -> In t ts ->
  table_by_name ts (t_name t) = Some t.
Proof.
  intros. destruct (table_by_name ts (t_name t)) eqn:E.
  - apply table_by_name_some in E. f_equal. eapply (nodup_name_eq t_name); intuition eauto.
  - apply table_by_name_none in E. exfalso. apply E. now apply in_map.
Qed.

Lemma flagged_set : forall (f : column -> bool) cs s k,
  In k (fold_left (fun s c => if f c then ss_add s (c_name c) else s) cs s) <->
  In k s \/ exists c, In c cs /\ f c = true /\ c_name c = k.
Proof.
  induction cs; simpl; intros.
  - split; auto. intros [|[c [[] _]]]; auto.
  - rewrite IHcs. destruct (f a) eqn:E.
    + rewrite ss_add_in. split.
      * intros [[->|H]|[c [H1 H2]]]; auto; right; eauto.
      * intros [H|[c [[->|H1] [H2 H3]]]]; auto.
        right. eauto.
    + split.
      * intros [H|[c [H1 H2]]]; auto. right. exists c. tauto.
      * intros [H|[c [[->|H1] [H2 H3]]]]; auto; [congruence|]. right. exists c. tauto.
Qed.

Lemma flagged_set_nodup : forall (f : column -> bool) cs s, NoDup s ->
  NoDup (fold_left (fun s c => if f c then ss_add s (c_name c) else s) cs s).
Proof.
  induction cs; simpl; intros; auto. apply IHcs. destruct (f a); auto. now apply ss_add_nodup.
Qed.

Lemma pk_name_set_in : forall t k, In k (pk_name_set t) <-> exists c, In c (t_cols t) /\ c_pk c = true /\ c_name c = k.
Proof. intros. unfold pk_name_set. rewrite flagged_set. simpl. tauto. Qed.
Lemma uq_name_set_in : forall t k, In k (uq_name_set t) <-> exists c, In c (t_cols t) /\ c_uq c = true /\ c_name c = k.
Proof. intros. unfold uq_name_set. rewrite flagged_set. simpl. tauto. Qed.
Lemma pk_name_set_nodup : forall t, NoDup (pk_name_set t).
Proof. intros. apply flagged_set_nodup. constructor. Qed.
Lemma uq_name_set_nodup : forall t, NoDup (uq_name_set t).
Proof. intros. apply flagged_set_nodup. constructor. Qed.

(** with distinct names the two lookups agree *)
Lemma column_lookup_agree : forall cs n, NoDup (map c_name cs) ->
  column_name_map cs n = column_by_name cs n.
Proof.
  intros. destruct (column_name_map cs n) eqn:E.
  - apply column_name_map_some in E. destruct E as [E <-]. symmetry. now apply column_by_name_nodup.
  - symmetry. apply column_by_name_none. now apply column_name_map_none.
Qed.
Lemma table_lookup_agree : forall ts n, NoDup (map t_name ts) ->
  tables_by_name ts n = table_by_name ts n.
Proof.
  intros. destruct (tables_by_name ts n) eqn:E.
  - apply tables_by_name_some in E. destruct E as [E <-]. symmetry. now apply table_by_name_nodup.
  - symmetry. apply table_by_name_none. now apply tables_by_name_none.
Qed.

Lemma lookups_facts : forall s,
  (forall n, table_by_name (s_tables s) n = None <-> ~ exists t, In t (s_tables s) /\ t_name t = n) /\
  (forall n t, table_by_name (s_tables s) n = Some t -> In t (s_tables s) /\ t_name t = n) /\
  (forall t n, column_by_name (t_cols t) n = None <-> ~ exists c, In c (t_cols t) /\ c_name c = n) /\
  (forall t n c, column_by_name (t_cols t) n = Some c -> In c (t_cols t) /\ c_name c = n) /\
  (NoDup (map t_name (s_tables s)) -> forall n,
     tables_by_name (s_tables s) n = table_by_name (s_tables s) n) /\
  (forall t, NoDup (map c_name (t_cols t)) -> forall n,
     column_name_map (t_cols t) n = column_by_name (t_cols t) n) /\
  (forall t n ix, index_by_name (t_indices t) n = Some ix -> In ix (t_indices t) /\ ix_name ix = n) /\
  (forall t n, index_by_name (t_indices t) n = None <-> ~ exists ix, In ix (t_indices t) /\ ix_name ix = n) /\
  (NoDup (map t_name (s_tables s)) -> (forall t, In t (s_tables s) -> NoDup (map c_name (t_cols t))) ->
   forall r t c, find_reference s r = Some (t, c) <->
     In t (s_tables s) /\ t_name t = ref_table r /\ In c (t_cols t) /\ c_name c = ref_column r) /\
  (forall t k, ss_contains (pk_name_set t) k = true <-> exists c, In c (t_cols t) /\ c_pk c = true /\ c_name c = k) /\
  (forall t k, ss_contains (uq_name_set t) k = true <-> exists c, In c (t_cols t) /\ c_uq c = true /\ c_name c = k).
Proof.
  intros s.
  assert (EX : forall {A} (f : A -> string) l n, In n (map f l) <-> exists x, In x l /\ f x = n).
  { intros. rewrite in_map_iff. split; intros [x [H1 H2]]; exists x; auto. }
  split; [intros; rewrite table_by_name_none, EX; tauto|].
  split; [apply table_by_name_some|].
  split; [intros; rewrite column_by_name_none, EX; tauto|].
  split; [intros t; apply column_by_name_some|].
  split; [intros; now apply table_lookup_agree|].
  split; [intros; now apply column_lookup_agree|].
  split; [|split; [|split; [|split]]].
  - intros t n ix. induction (t_indices t); simpl; intros; [discriminate|].
    destruct (String.eqb_spec (ix_name a) n); [inversion H; subst; auto|]. apply IHl in H. tauto.
  - intros t n. rewrite <- (EX _ ix_name). induction (t_indices t); simpl; intros; [tauto|].
    destruct (String.eqb_spec (ix_name a) n); [split; [discriminate|tauto]|]. rewrite IHl. tauto.
  - intros N1 N2 r t c. unfold find_reference. split.
    + destruct (table_by_name (s_tables s) (ref_table r)) eqn:E; [|discriminate].
      destruct (column_by_name (t_cols t0) (ref_column r)) eqn:E2; [|discriminate].
      intros H. inversion H; subst. apply table_by_name_some in E. apply column_by_name_some in E2. tauto.
    + intros [H1 [H2 [H3 H4]]]. rewrite <- H2, (table_by_name_nodup _ _ N1 H1).
      rewrite <- H4, (column_by_name_nodup _ _ (N2 _ H1) H3). reflexivity.
  - intros. rewrite ss_contains_iff. apply pk_name_set_in.
  - intros. rewrite ss_contains_iff. apply uq_name_set_in.
Qed.

(** * Groups *)
Lemma ss_new_in : forall l k, In k (ss_new l) <-> In k l.
Proof.
  assert (G : forall l s k, In k (fold_left ss_add l s) <-> In k s \/ In k l).
  { induction l; simpl; intros; [tauto|]. rewrite IHl, ss_add_in. intuition. }
  intros. unfold ss_new. rewrite G. simpl. tauto.
Qed.
Lemma ss_new_nodup : forall l, NoDup (ss_new l).
Proof.
  intros. unfold ss_new. assert (G : forall l s, NoDup s -> NoDup (fold_left ss_add l s)).
  { clear. induction l; simpl; intros; auto. apply IHl. now apply ss_add_nodup. }
  apply G. constructor.
Qed.

Lemma groups_spec : forall s,
  strictly_increasing (groups s) /\
  forall g, In g (groups s) <-> exists t, In t (s_tables s) /\ t_group t = g.
Proof.
  intros. unfold groups.
  assert (P : Permutation (sort_strings (ss_slice (ss_new (map t_group (s_tables s))))) (ss_new (map t_group (s_tables s)))).
  { rewrite sort_strings_perm. apply sort_strings_perm. }
  split.
  - apply sort_strings_nodup_strict. eapply Permutation_NoDup; [symmetry; apply sort_strings_perm|apply ss_new_nodup].
  - intros g. split; intros H.
    + apply (Permutation_in _ P) in H. apply (proj1 (ss_new_in _ _)) in H. apply in_map_iff in H.
      destruct H as [t [H1 H2]]. exists t. auto.
    + destruct H as [t [H1 <-]]. apply (Permutation_in _ (Permutation_sym P)). apply (proj2 (ss_new_in _ _)). now apply in_map.
Qed.

(** * Filter *)
Lemma filter_spec : forall opt t,
  (opt = "" -> passes (get_table_filter opt) t = true) /\
  (opt <> "" -> forall parts, parts <> [] -> (forall p, In p parts -> ~ char_in "," p) ->
     opt = join "," parts -> (passes (get_table_filter opt) t = true <-> In (t_group t) parts)).
Proof.
  intros. unfold get_table_filter. split.
  - intros ->. reflexivity.
  - intros H parts H1 H2 H3. apply String.eqb_neq in H. rewrite H. simpl. rewrite str_in_iff.
    rewrite H3. rewrite split_char_of_join; auto. reflexivity.
Qed.
