(** Removing columns from the tables of a schema: comparisons (C147) *)
From Coq Require Import String Ascii List NArith Bool Lia Sorting.Permutation.
From Verif.Model Require Import GoString Util Octopus DiffCore Diff Liquibase.
From Verif.Spec Require Import Order Text DiffSpec LocalSpec WidenSpec WidenSources WidenDiff NarrowDiff.
From Verif.Proofs Require Import ListLemmas StringLemmas UtilProofs OctopusProofs DiffCoreProofs DiffProofs DiffFacts LocalProofs LiquibaseProofs LiquibaseFacts WidenProofs WidenCases WidenDiffProofs.
Import ListNotations.
Local Open Scope string_scope.
Local Open Scope list_scope.

(** ** One change set for each name *)

Definition from_on {CS : Type} (mk : string -> string -> CS) (M k : nat) (names : list string) : list CS :=
  map (fun p => mk (version (mkId M (fst p))) (snd p)) (combine (seq (S k) (length names)) names).
Lemma from_on_numbered : forall {CS} (mk : string -> string -> CS) M names, from_on mk M 0 names = numbered mk M names.
Proof.
  intros CS mk M names. unfold from_on, numbered. apply map_ext_in. intros [i n] I. cbn [fst snd]. f_equal.
  apply in_combine_l in I. apply in_seq in I. unfold version. cbn [id_minor id_major].
  destruct i as [|i]; [lia|]. reflexivity.
Qed.
Lemma fold_from_on : forall {CS} (mk : string -> string -> CS) (step : list CS * ident -> string -> list CS * ident) names,
  (forall st n, step st n = (fst st ++ [mk (version (bump_minor (snd st))) n], bump_minor (snd st))) ->
  forall pre M k, fold_left step names (pre, mkId M k) = (pre ++ from_on mk M k names, mkId M (k + length names)).
Proof.
  intros CS mk step names H. induction names as [|n names IH]; intros pre M k; cbn [fold_left].
  - unfold from_on. cbn. now rewrite app_nil_r, PeanoNat.Nat.add_0_r.
  - rewrite H. unfold bump_minor. cbn [fst snd id_major id_minor]. rewrite IH. unfold from_on. cbn [length seq combine map fst snd].
    rewrite <- app_assoc. cbn [app length]. replace (k + S (length names)) with (S k + length names) by lia. reflexivity.
Qed.

(** ** One table: [t] is the new one, [t'] the old one *)

Section Table.
Variables t t' : table.
Hypothesis W : widened_table t t'.
Hypothesis D : NoDup (map c_name (t_cols t')).

Lemma scanned_gone : forall {CS} (dc : ident -> column -> column -> option (list CS * ident)) id,
  (forall c id, dc id c c = Some ([], id)) ->
  exists r, scan_columns dc (t_cols t') (with_pos (t_cols t)) id (ss_new (map c_name (t_cols t'))) = Some ([], id, r, []) /\
    Permutation (ss_slice r) (new_names t t') /\ strictly_increasing (ss_slice r).
Proof.
  intros CS dc id H. destruct W as [_ [_ [_ [_ [_ S]]]]].
  destruct (scan_columns_nothing dc (t_cols t') (with_pos (t_cols t)) id (ss_new (map c_name (t_cols t')))) as [r Es].
  { intros i c X. exists c. split; [|intros; apply H]. apply column_name_map_nodup; [exact D|].
    apply (sub_in _ _ _ S). apply with_pos_in. eauto. }
  exists r. split; [exact Es|]. apply scan_columns_spec in Es. destruct Es as [_ [_ [K N]]].
  assert (ND : NoDup r) by (apply N; apply ss_new_nodup).
  split; [|exact (proj1 (ss_slice_ord_spec (fun l => l) r (fun l => Permutation_refl l) ND))].
  rewrite ss_slice_perm. apply NoDup_Permutation; [exact ND|unfold new_names; now apply NoDup_filter|].
  intros x. rewrite K, ss_new_in. unfold new_names. rewrite filter_In, <- (map_map snd c_name), with_pos_snd.
  assert (E : existsb (String.eqb x) (map c_name (t_cols t)) = true <-> In x (map c_name (t_cols t))) by apply str_in_iff.
  destruct (existsb (String.eqb x) (map c_name (t_cols t))); cbn [negb].
  - split; intros [A B]; [|discriminate]. exfalso. apply B. split; [exact A|]. now apply E.
  - split; intros [A B]; (split; [exact A|]); [reflexivity|]. intros [_ C]. apply E in C. discriminate.
Qed.

Variables (KK : key_kept t t') (UK : unique_kept t t').

Definition drops {CS} (mk : table -> string -> string -> CS) (n : nat) (css : list CS) : Prop :=
  exists names, Permutation names (new_names t t') /\ strictly_increasing names /\ css = numbered (mk t) n names.

Lemma table_report : forall author comments suffix ord M, iteration_order ord ->
  exists css id', diff_table author comments suffix ord (mkId M 0) t t' = Some (css, id') /\ id_major id' = M /\
    drops (fun t id n => mkCS id author [DropColumn t n]) M css.
Proof.
  intros author comments suffix ord M Hord. unfold diff_table. destruct W as [_ [_ [_ [Ds _]]]].
  rewrite Ds, String.eqb_refl. cbn [negb]. rewrite andb_false_r, emit_false.
  destruct (scanned_gone (fun id c o => Some (diff_column author comments t id c o)) (mkId M 0)) as [r [-> [P I]]].
  { intros. now rewrite diff_column_self. }
  cbn [find_renamed]. rewrite (uq_kept _ _ UK), (pk_kept _ _ KK).
  rewrite (ss_equals_refl _ (uq_name_set_nodup t)), (ss_equals_refl _ (pk_name_set_nodup t)).
  assert (O : ord [] = []) by (apply Permutation_nil; symmetry; apply Hord).
  rewrite O. cbn [negb andb app]. rewrite !emit_false.
  rewrite (fold_from_on (fun id n => mkCS id author [DropColumn t n])) by reflexivity.
  change (not_renamed (@nil (nat * column)) []) with (@nil column). cbn [fold_left app]. rewrite ?emit_false.
  eexists. eexists. split; [reflexivity|]. split; [reflexivity|]. exists (ss_slice r). refine (conj P (conj I _)).
  apply (from_on_numbered (fun id n => mkCS id author [DropColumn t n])).
Qed.
Lemma table_log : forall float author comments suffix ord M, iteration_order ord ->
  exists css id', lq_diff_table float author comments suffix ord (mkId M 0) t t' = Some (css, id') /\ id_major id' = M /\
    drops (fun t id n => mkLqCS id author false [LqDropColumn (t_name t) n]) M css.
Proof.
  intros float author comments suffix ord M Hord. unfold lq_diff_table. destruct W as [_ [_ [_ [Ds _]]]].
  rewrite Ds, String.eqb_refl. cbn [negb]. rewrite andb_false_r. cbn [lq_emit].
  destruct (scanned_gone (lq_diff_column float author comments t) (mkId M 0)) as [r [-> [P I]]].
  { intros. apply lq_diff_column_self. }
  cbn [find_renamed]. rewrite (uq_kept _ _ UK), (pk_kept _ _ KK).
  rewrite (ss_equals_refl _ (uq_name_set_nodup t)), (ss_equals_refl _ (pk_name_set_nodup t)).
  assert (O : ord [] = []) by (apply Permutation_nil; symmetry; apply Hord).
  rewrite O. cbn [negb lq_emit app].
  rewrite (fold_from_on (fun id n => mkLqCS id author false [LqDropColumn (t_name t) n])) by reflexivity.
  cbn [fold_left filter app lq_emit].
  eexists. eexists. split; [reflexivity|]. split; [reflexivity|]. exists (ss_slice r). refine (conj P (conj I _)).
  apply (from_on_numbered (fun id n => mkLqCS id author false [LqDropColumn (t_name t) n])).
Qed.
End Table.

(** ** The schemas *)

Lemma numbered_nil : forall {CS} (mk : string -> string -> CS) n names, numbered mk n names = [] -> names = [].
Proof. intros CS mk n [|x names]; [reflexivity|discriminate]. Qed.
Lemma scan_gone : forall {CS} (mk : table -> string -> string -> CS) dt f from ts ts',
  Forall2 (fun t t' => passes f t = true /\ tables_by_name from (t_name t) = Some t' /\
    forall i M, exists css id', dt i (mkId M 0) t t' = Some (css, id') /\ id_major id' = M /\ drops t t' mk M css) ts ts' ->
  forall k id removed, exists css id' r,
    scan_tables dt f from (combine (seq k (length ts)) ts) id removed = Some (css, id', r, []) /\
    only_gone mk (id_major id) (combine ts ts') css /\ (forall n, In n r -> In n removed /\ ~ In n (map t_name ts)).
Proof.
  intros CS mk dt f from ts ts' F. induction F as [|t t' ts ts' [P [L H]] F IH]; intros k id removed; cbn [length seq combine scan_tables].
  - eexists. eexists. eexists. split; [reflexivity|]. split; [constructor|]. intros n I. split; [exact I|intros []].
  - rewrite P, L. cbn [negb]. unfold bump_major. destruct (H k (S (id_major id))) as [c0 [i0 [-> [E [names [Q [I ->]]]]]]].
    destruct (numbered (mk t) (S (id_major id)) names) as [|x l] eqn:X.
    + apply numbered_nil in X. subst names. apply Permutation_nil in Q.
      destruct (IH (S k) (revert_major i0) (ss_remove removed (t_name t))) as [c1 [i1 [r [-> [A B]]]]].
      eexists. eexists. eexists. split; [reflexivity|]. split.
      * apply gone_none; [exact Q|]. unfold revert_major in A. cbn [id_major] in A. rewrite E in A. exact A.
      * intros n J. destruct (B n J) as [Y Z]. apply ss_remove_in in Y as [Y1 Y2]. split; [exact Y1|]. cbn [map]. intros [V|V]; [congruence|contradiction].
    + destruct (IH (S k) i0 (ss_remove removed (t_name t))) as [c1 [i1 [r [-> [A B]]]]].
      eexists. eexists. eexists. split; [reflexivity|]. split.
      * rewrite <- X. apply gone_some; [|exact Q|exact I|rewrite E in A; exact A].
        intros N. rewrite N in Q. apply Permutation_sym, Permutation_nil in Q. subst names. discriminate.
      * intros n J. destruct (B n J) as [Y Z]. apply ss_remove_in in Y as [Y1 Y2]. split; [exact Y1|]. cbn [map]. intros [V|V]; [congruence|contradiction].
Qed.

Lemma diff_gone : forall {CS} (mk : table -> string -> string -> CS) dt drop_cs rename_cs create_cs ordT f s s', iteration_order ordT ->
  map t_name (s_tables s') = map t_name (s_tables s) ->
  Forall2 (fun t t' => passes f t = true /\ tables_by_name (s_tables s') (t_name t) = Some t' /\
    forall i M, exists css id', dt i (mkId M 0) t t' = Some (css, id') /\ id_major id' = M /\ drops t t' mk M css) (s_tables s) (s_tables s') ->
  exists css, diff_schemas dt drop_cs rename_cs create_cs ordT f s' s = Some css /\ only_gone mk 0 (combine (s_tables s) (s_tables s')) css.
Proof.
  intros CS mk dt drop_cs rename_cs create_cs ordT f s s' HT N F. unfold diff_schemas.
  destruct (scan_gone mk dt f (s_tables s') _ _ F 0 new_id (ss_new (map t_name (s_tables s')))) as [css [id' [r [E [A R]]]]].
  unfold with_pos. rewrite E.
  assert (r = []) as ->.
  { destruct r as [|n r]; [reflexivity|]. destruct (R n (or_introl eq_refl)) as [X Y]. apply (proj1 (ss_new_in _ _)) in X.
    rewrite N in X. contradiction. }
  cbn [find_renamed]. change (ss_slice []) with (@nil string). cbn [drop_tables].
  assert (O : ordT [] = []) by (apply Permutation_nil; symmetry; apply HT). rewrite O.
  cbn. rewrite app_nil_r. exists css. split; [reflexivity|exact A].
Qed.

Lemma paired : forall f s s', widened s s' -> distinct_names s' -> (forall t, In t (s_tables s) -> selected f t) ->
  Forall2 key_kept (s_tables s) (s_tables s') -> Forall2 unique_kept (s_tables s) (s_tables s') ->
  Forall2 (fun t t' => passes f t = true /\ tables_by_name (s_tables s') (t_name t) = Some t' /\
    widened_table t t' /\ NoDup (map c_name (t_cols t')) /\ key_kept t t' /\ unique_kept t t') (s_tables s) (s_tables s').
Proof.
  intros f s s' [_ [_ [_ F]]] [D1 D2] Hf K U.
  assert (G : Forall2 (fun t t' => In t (s_tables s) /\ In t' (s_tables s')) (s_tables s) (s_tables s')).
  { clear -F. induction F as [|t t' ts ts' W F IH]; constructor; [split; now left|].
    eapply both_weaker; [|exact IH]. intros a b [X Y]. split; now right. }
  pose proof (Forall2_both _ _ _ _ (Forall2_both _ _ _ _ F (Forall2_both _ _ _ _ K U)) G) as H.
  eapply both_weaker; [|exact H]. cbn beta. intros a b [[X [Y Z]] [Ia Ib]].
  split; [now apply passes_selected, Hf|]. split; [|auto]. destruct X as [N _]. rewrite <- N. now apply tables_by_name_nodup.
Qed.
Lemma report_gone : forall ordT ordC o s s', iteration_order ordT -> (forall i, iteration_order (ordC i)) ->
  widened s s' -> distinct_names s' -> (forall t, In t (s_tables s) -> selected (do_filter o) t) ->
  Forall2 key_kept (s_tables s) (s_tables s') -> Forall2 unique_kept (s_tables s) (s_tables s') ->
  exists css, get_diff ordT ordC o s' s = Some css /\
    only_gone (fun t id n => mkCS id (if String.eqb (do_author o) "" then s_author s else do_author o) [DropColumn t n]) 0
      (combine (s_tables s) (s_tables s')) css.
Proof.
  intros ordT ordC o s s' HT HC W D Hf K U. unfold get_diff.
  assert (A : choose_author (do_author o) s = if String.eqb (do_author o) "" then s_author s else do_author o).
  { unfold choose_author. now destruct (String.eqb (do_author o) ""). }
  rewrite A. apply diff_gone; [exact HT|destruct W as [_ [_ [_ F]]]; now apply named_old|].
  eapply both_weaker; [|exact (paired _ _ _ W D Hf K U)]. intros t t' [P [L [Wt [Dt [Kt Ut]]]]]. refine (conj P (conj L _)).
  intros i M. now apply table_report.
Qed.
Lemma log_gone : forall float ordT ordC o s s', iteration_order ordT -> (forall i, iteration_order (ordC i)) ->
  widened s s' -> distinct_names s' -> (forall t, In t (s_tables s) -> selected (lo_filter o) t) ->
  Forall2 key_kept (s_tables s) (s_tables s') -> Forall2 unique_kept (s_tables s) (s_tables s') ->
  exists css, lq_diff float ordT ordC o s' s = Some css /\
    only_gone (fun t id n => mkLqCS id (if String.eqb (lo_author o) "" then s_author s else lo_author o) false [LqDropColumn (t_name t) n]) 0
      (combine (s_tables s) (s_tables s')) css.
Proof.
  intros float ordT ordC o s s' HT HC W D Hf K U. unfold lq_diff.
  assert (A : choose_author (lo_author o) s = if String.eqb (lo_author o) "" then s_author s else lo_author o).
  { unfold choose_author. now destruct (String.eqb (lo_author o) ""). }
  rewrite A. apply diff_gone; [exact HT|destruct W as [_ [_ [_ F]]]; now apply named_old|].
  eapply both_weaker; [|exact (paired _ _ _ W D Hf K U)]. intros t t' [P [L [Wt [Dt [Kt Ut]]]]]. refine (conj P (conj L _)).
  intros i M. now apply table_log.
Qed.
