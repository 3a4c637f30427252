(** Adding columns to the tables of a schema: comparisons (C146) *)
From Coq Require Import String Ascii List NArith Bool Lia Sorting.Permutation.
From Verif.Model Require Import GoString Util Octopus DiffCore Diff Liquibase.
From Verif.Spec Require Import Order Text DiffSpec LocalSpec WidenSpec WidenSources WidenDiff.
From Verif.Proofs Require Import ListLemmas StringLemmas UtilProofs OctopusProofs DiffCoreProofs DiffProofs DiffFacts LocalProofs LiquibaseProofs LiquibaseFacts WidenProofs WidenCases.
Import ListNotations.
Local Open Scope string_scope.
Local Open Scope list_scope.

(** ** One table *)

Lemma scan_columns_wide : forall {CS} (dc : ident -> column -> column -> option (list CS * ident)) old cs id removed,
  (forall i c o, In (i, c) cs -> column_name_map old (c_name c) = Some o -> forall id, dc id c o = Some ([], id)) ->
  exists r, scan_columns dc old cs id removed = Some ([], id, r, filter (is_added_col old) cs).
Proof.
  intros CS dc old cs. induction cs as [|[i c] cs IH]; intros id removed H; cbn [scan_columns filter]; [eauto|].
  assert (K : forall i c o, In (i, c) cs -> column_name_map old (c_name c) = Some o -> forall id, dc id c o = Some ([], id)).
  { intros j d o X. apply (H j d o). now right. }
  unfold is_added_col at 1. cbn [snd]. destruct (column_name_map old (c_name c)) as [o|] eqn:E.
  - rewrite (H i c o (or_introl eq_refl) E). destruct (IH id (ss_remove removed (c_name c)) K) as [r ->].
    apply column_name_map_some in E as [E1 E2].
    assert (X : str_in (c_name c) (map c_name old) = true) by (apply str_in_iff; rewrite <- E2; now apply in_map).
    rewrite X. eauto.
  - destruct (IH id removed K) as [r ->]. apply column_name_map_none in E.
    assert (X : str_in (c_name c) (map c_name old) = false).
    { destruct (str_in (c_name c) (map c_name old)) eqn:X; [|reflexivity]. apply str_in_iff in X. contradiction. }
    rewrite X. eauto.
Qed.
Lemma find_renamed_none : forall {A} (lookup : string -> option A) same added, find_renamed lookup same added [] = ([], []).
Proof. intros A lookup same added. induction added as [|[i a] l IH]; [reflexivity|exact IH]. Qed.
Lemma sub_in_map : forall {A B} (f : A -> B) l l' x, sub l l' -> In x (map f l) -> In x (map f l').
Proof. intros A B f l l' x S. apply sub_in. now apply sub_map. Qed.
Lemma same_name : forall cs c d, NoDup (map c_name cs) -> In c cs -> In d cs -> c_name c = c_name d -> c = d.
Proof.
  intros cs c d D C E N. pose proof (column_name_map_nodup _ _ D C) as X. rewrite N, (column_name_map_nodup _ _ D E) in X. congruence.
Qed.

Lemma fold_flagged : forall (p : column -> bool) cs s,
  fold_left (fun s c => if p c then ss_add s (c_name c) else s) cs s = fold_left (fun s c => ss_add s (c_name c)) (filter p cs) s.
Proof.
  intros p cs. induction cs as [|c cs IH]; intros s; cbn [fold_left filter]; [reflexivity|].
  rewrite IH. now destruct (p c).
Qed.
Lemma pk_kept : forall t t', key_kept t t' -> pk_name_set t' = pk_name_set t.
Proof. intros t t' K. unfold pk_name_set. rewrite !fold_flagged. unfold key_kept, key_of in K. now rewrite K. Qed.
Lemma uq_kept : forall t t', unique_kept t t' -> uq_name_set t' = uq_name_set t.
Proof. intros t t' K. unfold uq_name_set. rewrite !fold_flagged. unfold unique_kept, unique_of in K. now rewrite K. Qed.

Section Table.
Variables t t' : table.
Hypothesis W : widened_table t t'.
Hypothesis D : NoDup (map c_name (t_cols t')).

Lemma kept_same : forall i c o, In (i, c) (with_pos (t_cols t')) -> column_name_map (t_cols t) (c_name c) = Some o -> o = c.
Proof.
  intros i c o X E. apply column_name_map_some in E as [E1 E2]. destruct W as [_ [_ [_ [_ [_ S]]]]].
  apply (same_name _ _ _ D); [now apply (sub_in _ _ _ S)| |exact E2]. apply with_pos_in. eauto.
Qed.
(** what scanning the columns yields *)
Lemma scanned : forall {CS} (dc : ident -> column -> column -> option (list CS * ident)) id,
  (forall c id, dc id c c = Some ([], id)) ->
  scan_columns dc (t_cols t) (with_pos (t_cols t')) id (ss_new (map c_name (t_cols t))) =
    Some ([], id, [], filter (is_added_col (t_cols t)) (with_pos (t_cols t'))).
Proof.
  intros CS dc id H.
  destruct (scan_columns_wide dc (t_cols t) (with_pos (t_cols t')) id (ss_new (map c_name (t_cols t)))) as [r Es].
  { intros i c o X E id'. rewrite (kept_same _ _ _ X E). apply H. }
  rewrite Es. apply scan_columns_spec in Es. destruct Es as [_ [_ [K _]]].
  assert (r = []).
  { destruct r as [|n r]; [reflexivity|]. exfalso. destruct (proj1 (K n)) as [A B]; [now left|]. apply B.
    apply (proj1 (ss_new_in _ _)) in A. split; [exact A|].
    rewrite <- (map_map snd c_name), with_pos_snd. destruct W as [_ [_ [_ [_ [_ S]]]]]. now apply (sub_in_map _ _ _ _ S). }
  now subst r.
Qed.
Lemma added_names : map (fun ic => c_name (snd ic)) (filter (is_added_col (t_cols t)) (with_pos (t_cols t'))) = new_names t t'.
Proof.
  unfold new_names. rewrite <- (with_pos_snd (t_cols t')) at 2. rewrite map_map.
  induction (with_pos (t_cols t')) as [|[i c] l IH]; [reflexivity|]. cbn [filter map]. unfold is_added_col at 1, str_in at 1. cbn [snd].
  destruct (existsb (String.eqb (c_name c)) (map c_name (t_cols t))); cbn [negb map snd]; [exact IH|now f_equal].
Qed.

Variables (KK : key_kept t t') (UK : unique_kept t t').

(** the report has nothing *)
Lemma table_silent : forall author comments suffix ord id, iteration_order ord ->
  exists id', diff_table author comments suffix ord id t' t = Some ([], id').
Proof.
  intros author comments suffix ord id Hord. unfold diff_table. destruct W as [_ [_ [_ [Ds _]]]].
  rewrite Ds, String.eqb_refl. cbn [negb]. rewrite andb_false_r, emit_false.
  rewrite (scanned (fun id c o => Some (diff_column author comments t' id c o))) by (intros; now rewrite diff_column_self).
  rewrite find_renamed_none, (uq_kept _ _ UK), (pk_kept _ _ KK).
  rewrite (ss_equals_refl _ (uq_name_set_nodup t)), (ss_equals_refl _ (pk_name_set_nodup t)).
  assert (O : ord [] = []) by (apply Permutation_nil; symmetry; apply Hord).
  rewrite O. cbn. destruct (not_renamed _ _); eauto.
Qed.

(** the change log has the columns *)
Lemma after_right : forall i c, In (i, c) (with_pos (t_cols t')) -> forall lc, lc_name lc = c_name c ->
  lc_after lc = last_col_name (t_cols t') i -> put_right t' lc.
Proof.
  intros i c X lc N A. apply with_pos_nth in X. apply nth_error_split in X as [pre [post [E L]]].
  exists pre, c, post. refine (conj E (conj N _)). rewrite A. unfold last_col_name. destruct i as [|j].
  - destruct pre; [reflexivity|discriminate].
  - destruct (@exists_last _ pre) as [p [x P]]; [intros ->; discriminate|]. subst pre.
    rewrite E, <- app_assoc, app_length in *. cbn [length] in L.
    rewrite nth_error_app2 by lia. replace (j - length p)%nat with 0 by lia. cbn [app nth_error].
    rewrite map_app. cbn [map]. now rewrite last_last.
Qed.
Lemma added_right : forall float comments l lcs, incl l (with_pos (t_cols t')) -> add_column_list float comments (t_cols t') l = Some lcs ->
  map lc_name lcs = map (fun ic => c_name (snd ic)) l /\ Forall (put_right t') lcs.
Proof.
  intros float comments l. induction l as [|[i c] l IH]; intros lcs I E; cbn [add_column_list] in E.
  - injection E as <-. split; constructor.
  - destruct (new_lq_column float c true true) as [lc|] eqn:L; [|discriminate].
    destruct (add_column_list float comments (t_cols t') l) as [r|] eqn:R; [|discriminate]. injection E as <-.
    destruct (IH r (fun x X => I x (or_intror X)) eq_refl) as [A B].
    assert (N : lc_name lc = c_name c).
    { unfold new_lq_column in L. destruct (negb (String.eqb (c_default c) "")).
      - destruct (new_lq_default float c); [|discriminate]. cbn [option_map] in L. now injection L as <-.
      - now injection L as <-. }
    assert (N' : lc_name (lc_comments comments lc) = c_name c) by (unfold lc_comments; now destruct comments).
    split; [cbn [map snd]; f_equal; [exact N'|exact A]|]. constructor; [|exact B].
    apply (after_right i c); [apply I; now left|exact N'|reflexivity].
Qed.
Lemma table_adds : forall float author comments suffix ord id css id', iteration_order ord ->
  lq_diff_table float author comments suffix ord id t' t = Some (css, id') ->
  (new_names t t' = [] /\ css = [] /\ id' = id) \/
  (new_names t t' <> [] /\ exists lcs, css = [mkLqCS (version (bump_minor id)) author false [LqAddColumn (t_name t') lcs]] /\
    map lc_name lcs = new_names t t' /\ Forall (put_right t') lcs /\ id' = bump_minor id).
Proof.
  intros float author comments suffix ord id css id' Hord. unfold lq_diff_table. destruct W as [_ [_ [_ [Ds _]]]].
  rewrite Ds, String.eqb_refl. cbn [negb]. rewrite andb_false_r. cbn [lq_emit].
  rewrite (scanned (lq_diff_column float author comments t')) by (intros; apply lq_diff_column_self).
  rewrite find_renamed_none, (uq_kept _ _ UK), (pk_kept _ _ KK).
  rewrite (ss_equals_refl _ (uq_name_set_nodup t)), (ss_equals_refl _ (pk_name_set_nodup t)).
  assert (O : ord [] = []) by (apply Permutation_nil; symmetry; apply Hord).
  rewrite O. cbn [negb lq_emit app fold_left existsb]. change (ss_slice []) with (@nil string). cbn [fold_left].
  set (added := filter (is_added_col (t_cols t)) (with_pos (t_cols t'))).
  assert (F : filter (fun _ : nat * column => true) added = added).
  { induction added as [|x l IH]; [reflexivity|]. cbn [filter]. now rewrite IH. }
  rewrite F. rewrite <- added_names. fold added. intros E.
  assert (I : incl added (with_pos (t_cols t'))) by (intros x X; now apply filter_In in X).
  destruct added as [|a l] eqn:A.
  - left. injection E as <- <-. auto.
  - right. split; [discriminate|].
    destruct (add_column_list float comments (t_cols t') (a :: l)) as [lcs|] eqn:L; [|discriminate].
    destruct (added_right _ _ _ _ I L) as [P Q]. injection E as <- <-. exists lcs. auto.
Qed.
End Table.

(** ** The schemas *)

Lemma named_old : forall ts ts', Forall2 widened_table ts ts' -> map t_name ts' = map t_name ts.
Proof. intros ts ts' F. induction F as [|t t' ts ts' [N _] F IH]; [reflexivity|]. cbn [map]. now f_equal. Qed.
Lemma both_weaker : forall {A B} (P Q : A -> B -> Prop) l l', (forall a b, P a b -> Q a b) -> Forall2 P l l' -> Forall2 Q l l'.
Proof. intros A B P Q l l' H F. induction F; constructor; auto. Qed.
Lemma Forall2_pick : forall {A B} (R : A -> B -> Prop) l l' y, Forall2 R l l' -> In y l' -> exists x, In x l /\ R x y.
Proof.
  intros A B R l l' y F. induction F as [|a b l l' X F IH]; intros [].
  - subst. exists a. split; [now left|exact X].
  - destruct (IH H) as [x [I J]]. exists x. split; [now right|exact J].
Qed.

Lemma report_silent : forall ordT ordC o s s', iteration_order ordT -> (forall i, iteration_order (ordC i)) ->
  widened s s' -> distinct_names s' -> (forall t, In t (s_tables s') -> selected (do_filter o) t) ->
  Forall2 key_kept (s_tables s) (s_tables s') -> Forall2 unique_kept (s_tables s) (s_tables s') ->
  get_diff ordT ordC o s s' = Some [].
Proof.
  intros ordT ordC o s s' HT HC [_ [_ [_ F]]] [D1 D2] Hf K U. unfold get_diff. apply diff_schemas_nothing; [exact HT| |].
  - intros n. now rewrite (named_old _ _ F).
  - intros i t' X. assert (Y : In t' (s_tables s')) by (apply with_pos_in; eauto).
    split; [now apply passes_selected, Hf|].
    destruct (Forall2_pick _ _ _ t' (WidenProofs.Forall2_both _ _ _ _ F (WidenProofs.Forall2_both _ _ _ _ K U)) Y) as [t [I [Wt [Kt Ut]]]].
    exists t. split.
    + destruct Wt as [N _]. rewrite N. apply tables_by_name_nodup; [|exact I]. now rewrite <- (named_old _ _ F).
    + intros id. apply (table_silent t t' Wt (D2 _ Y) Kt Ut). apply HC.
Qed.

Lemma scan_adds : forall float author comments suffix ordC f from, (forall i, iteration_order (ordC i)) ->
  forall ts ts' k id removed css id' r added,
  Forall2 (fun t t' => (widened_table t t' /\ key_kept t t' /\ unique_kept t t') /\ passes f t' = true /\ NoDup (map c_name (t_cols t')) /\ tables_by_name from (t_name t') = Some t) ts ts' ->
  scan_tables (fun i id t old => lq_diff_table float author comments suffix (ordC i) id t old) f from (combine (seq k (length ts')) ts') id removed
    = Some (css, id', r, added) ->
  only_new author (id_major id) (combine ts ts') css /\ added = [] /\ (forall n, In n r -> In n removed /\ ~ In n (map t_name ts')).
Proof.
  intros float author comments suffix ordC f from HC ts ts' k id removed css id' r added F. revert k id removed css id' r added.
  induction F as [|t t' ts ts' [[W [K U]] [P [D L]]] F IH]; intros k id removed css id' r added; cbn [length seq combine scan_tables].
  - intros E. injection E as <- <- <- <-. refine (conj _ (conj eq_refl _)); [constructor|]. intros n I. split; [exact I|intros []].
  - rewrite P, L. cbn [negb].
    destruct (lq_diff_table float author comments suffix (ordC k) (bump_major id) t' t) as [[c0 i0]|] eqn:T; [|discriminate].
    destruct (scan_tables _ f from (combine (seq (S k) (length ts')) ts') _ _) as [[[[c1 i1] r1] a1]|] eqn:S; [|discriminate].
    intros E. injection E as <- <- <- <-. apply IH in S as [A [B C]].
    split; [|split; [exact B|]].
    + apply (table_adds t t' W D K U) in T; [|apply HC].
      destruct T as [[N [-> ->]]|[N [lcs [-> [M [Q ->]]]]]].
      * apply new_none; [exact N|]. exact A.
      * change (version (bump_minor (bump_major id))) with (itoa (N.of_nat (S (id_major id))) ++ "-" ++ itoa (N.of_nat 1))%string.
        apply new_some; [exact N|exact M|exact Q|exact A].
    + intros n I. destruct (C n I) as [X Y]. apply ss_remove_in in X as [X1 X2]. split; [exact X1|].
      cbn [map]. intros [Z|Z]; [congruence|contradiction].
Qed.

Lemma log_only_new : forall float ordT ordC o s s' css, iteration_order ordT -> (forall i, iteration_order (ordC i)) ->
  widened s s' -> distinct_names s' -> (forall t, In t (s_tables s') -> selected (lo_filter o) t) ->
  Forall2 key_kept (s_tables s) (s_tables s') -> Forall2 unique_kept (s_tables s) (s_tables s') ->
  lq_diff float ordT ordC o s s' = Some css ->
  only_new (if String.eqb (lo_author o) "" then s_author s' else lo_author o) 0 (combine (s_tables s) (s_tables s')) css.
Proof.
  intros float ordT ordC o s s' css HT HC [_ [_ [_ F]]] [D1 D2] Hf K U E. unfold lq_diff, diff_schemas in E.
  destruct (scan_tables _ (lo_filter o) (s_tables s) (with_pos (s_tables s')) new_id _) as [[[[c1 i1] r1] a1]|] eqn:S; [|discriminate].
  unfold with_pos in S. eapply scan_adds in S as [A [-> R]]; [|exact HC|].
  - assert (r1 = []) as ->.
    { destruct r1 as [|n r1]; [reflexivity|]. destruct (R n (or_introl eq_refl)) as [X Y]. apply (proj1 (ss_new_in _ _)) in X.
      rewrite (named_old _ _ F) in Y. contradiction. }
    cbn [find_renamed] in E. change (ss_slice []) with (@nil string) in E. cbn [drop_tables] in E.
    assert (O : ordT [] = []) by (apply Permutation_nil; symmetry; apply HT). rewrite O in E.
    cbn in E. rewrite app_nil_r in E. assert (W : css = c1) by (injection E as E; symmetry; exact E). subst c1.
    unfold choose_author in A. destruct (String.eqb (lo_author o) ""); exact A.
  - assert (G : Forall2 (fun t t' => In t (s_tables s) /\ In t' (s_tables s')) (s_tables s) (s_tables s')).
    { clear -F. induction F as [|t t' ts ts' W F IH]; constructor; [split; now left|].
      eapply both_weaker; [|exact IH]. intros a b [X Y]. split; now right. }
    pose proof (WidenProofs.Forall2_both _ _ _ _ (WidenProofs.Forall2_both _ _ _ _ F (WidenProofs.Forall2_both _ _ _ _ K U)) G) as H.
    eapply both_weaker; [|exact H]. cbn beta. intros a b [X [Y Z]]. split; [exact X|]. split; [now apply passes_selected, Hf|].
    split; [now apply D2|]. destruct X as [[N _] _]. rewrite N. apply tables_by_name_nodup; [|exact Y]. now rewrite <- (named_old _ _ F).
Qed.
