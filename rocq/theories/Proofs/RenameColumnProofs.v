(** Comparisons of schemas whose columns have got other names (C150) *)
From Coq Require Import String Ascii List NArith Bool Lia Sorting.Permutation.
From Verif.Model Require Import GoString Util Octopus DiffCore Diff Liquibase.
From Verif.Spec Require Import DiffSpec RenameColumns.
From Verif.Proofs Require Import StringLemmas UtilProofs OctopusProofs DiffCoreProofs DiffFacts LiquibaseProofs Agree.
Import ListNotations.
Local Open Scope string_scope.

Lemma alike_spec : forall comments c d, is_renamed c d (negb comments) = true <-> alike comments c d.
Proof.
  intros comments c d. unfold is_renamed, alike. rewrite !andb_true_iff, !String.eqb_eq, !N.eqb_eq, !Bool.eqb_true_iff, orb_true_iff, String.eqb_eq.
  destruct comments; cbn [negb]; intuition congruence.
Qed.
Lemma alike_self : forall b n c, alike b (column_called n c) c.
Proof. intros b n c. unfold alike. cbn. tauto. Qed.

Section Renames.
  Variables (comments : bool) (ren : string -> string) (t t' : table).
  Hypothesis (R : columns_renamed ren t t') (Fr : fresh_columns ren t) (Ta : columns_apart comments ren t)
    (Df : NoDup (map c_name (t_cols t))) (Dt : NoDup (map c_name (t_cols t'))).

  Lemma moved_not : forall c, column_moved ren c = false -> column_by ren c = c.
  Proof.
    intros c M. unfold column_moved in M. apply negb_false_iff, String.eqb_eq in M. unfold column_by, column_called. rewrite M. now destruct c.
  Qed.
  Lemma to_from : forall u, In u (t_cols t') -> exists v, In v (t_cols t) /\ u = column_by ren v.
  Proof. intros u I. destruct R as [_ [_ P]]. apply (Permutation_in _ P) in I. apply in_map_iff in I as [v [<- I]]. eauto. Qed.
  Lemma from_to : forall v, In v (t_cols t) -> In (column_by ren v) (t_cols t').
  Proof. intros v I. destruct R as [_ [_ P]]. apply (Permutation_in _ (Permutation_sym P)). now apply in_map. Qed.
  Lemma by_name : forall c d, In c (t_cols t) -> In d (t_cols t) -> c_name c = c_name d -> c = d.
  Proof.
    intros c d T U E. pose proof (column_name_map_nodup _ _ Df T) as A. pose proof (column_name_map_nodup _ _ Df U) as B. congruence.
  Qed.
  Lemma new_moved : forall v, In v (t_cols t) -> (~ In (c_name (column_by ren v)) (map c_name (t_cols t)) <-> column_moved ren v = true).
  Proof.
    intros v I. split; [|apply Fr; exact I]. intros N. destruct (column_moved ren v) eqn:M; [reflexivity|]. exfalso. apply N.
    rewrite (moved_not _ M). now apply in_map.
  Qed.
  Lemma gone_moved : forall c, In c (t_cols t) -> (~ In (c_name c) (map c_name (t_cols t')) <-> column_moved ren c = true).
  Proof.
    intros c T. split.
    - intros N. destruct (column_moved ren c) eqn:M; [reflexivity|]. exfalso. apply N. rewrite <- (moved_not _ M). apply in_map. now apply from_to.
    - intros M X. apply in_map_iff in X as [u [E U]]. destruct (to_from u U) as [v [V ->]]. destruct (column_moved ren v) eqn:MV.
      + apply (Fr v V MV). cbn in E. rewrite E. now apply in_map.
      + rewrite (moved_not _ MV) in E. rewrite (by_name v c V T E) in MV. congruence.
  Qed.
  Lemma at_once : forall i j a, In (i, a) (with_pos (t_cols t')) -> In (j, a) (with_pos (t_cols t')) -> i = j.
  Proof.
    intros i j a I J. apply with_pos_nth in I, J.
    apply (proj1 (NoDup_nth_error (map c_name (t_cols t'))) Dt).
    - apply nth_error_Some. rewrite (map_nth_error c_name i _ I). discriminate.
    - now rewrite (map_nth_error c_name i _ I), (map_nth_error c_name j _ J).
  Qed.

  Section Found.
    Variables (removed : sset) (m : list (nat * (column * column))) (rest : sset).
    Let added := filter (is_added_col (t_cols t)) (with_pos (t_cols t')).
    Let same := fun a r => is_renamed a r (negb comments).
    Hypothesis (Dr : NoDup removed)
      (Rm : forall k, In k removed <-> In k (map c_name (t_cols t)) /\ ~ In k (map c_name (t_cols t')))
      (Fd : find_renamed (column_name_map (t_cols t)) same added removed = (m, rest)).

    Lemma removed_moved : forall k, In k removed <-> exists c, In c (t_cols t) /\ c_name c = k /\ column_moved ren c = true.
    Proof.
      intros k. rewrite Rm. split.
      - intros [I N]. apply in_map_iff in I as [c [<- I]]. exists c. split; [exact I|]. split; [reflexivity|]. now apply gone_moved.
      - intros [c [I [<- M]]]. split; [now apply in_map|]. now apply gone_moved.
    Qed.
    Lemma added_moved : forall i a, In (i, a) added -> exists v, In v (t_cols t) /\ a = column_by ren v /\ column_moved ren v = true.
    Proof.
      intros i a I. unfold added in I. apply filter_In in I as [I K].
      assert (T : In a (t_cols t')) by (apply with_pos_in; eauto). destruct (to_from a T) as [v [V E]]. exists v. split; [exact V|]. split; [exact E|].
      apply new_moved; [exact V|]. rewrite <- E. unfold is_added_col in K. cbn [snd] in K.
      apply negb_true_iff in K. intros X. apply str_in_iff in X. congruence.
    Qed.
    Lemma moved_added : forall v, In v (t_cols t) -> column_moved ren v = true -> exists i, In (i, column_by ren v) added.
    Proof.
      intros v V M. pose proof (from_to v V) as T. apply with_pos_in in T as [i T]. exists i. apply filter_In. split; [exact T|].
      unfold is_added_col. cbn [snd]. apply negb_true_iff.
      destruct (str_in (c_name (column_by ren v)) (map c_name (t_cols t))) eqn:E; [|reflexivity].
      apply str_in_iff in E. exfalso. now apply (proj2 (new_moved v V) M).
    Qed.
    Lemma lookup_names : forall n r, column_name_map (t_cols t) n = Some r -> c_name r = n.
    Proof. intros n r L. now apply column_name_map_some in L as [_ L]. Qed.

    Lemma pairs : forall i a r, In (i, (a, r)) m -> In (i, a) added /\ In r (t_cols t) /\ column_moved ren r = true /\ a = column_by ren r.
    Proof.
      intros i a r I. destruct (find_renamed_spec _ _ _ lookup_names _ _ _ _ Dr Fd) as [_ [P [C _]]].
      destruct (C _ _ _ I) as [A [L E]]. apply alike_spec in E.
      assert (K : In (c_name r) removed).
      { apply (Permutation_in _ (Permutation_sym P)). apply in_or_app. left. apply in_map_iff. now exists (i, (a, r)). }
      apply removed_moved in K as [c [T [N M]]]. apply column_name_map_some in L as [L _].
      rewrite (by_name c r T L N) in M. destruct (added_moved i a A) as [v [V [-> MV]]].
      assert (X : v = r) by (apply Ta; assumption). subst v. auto.
    Qed.
    Lemma none_left : rest = [].
    Proof.
      destruct (find_renamed_spec _ _ _ lookup_names _ _ _ _ Dr Fd) as [_ [P _]].
      assert (No : forall n, ~ In n rest); [|destruct rest as [|n rest']; [reflexivity|destruct (No n); now left]]. intros n In_rest.
      assert (K : In n removed) by (apply (Permutation_in _ (Permutation_sym P)), in_or_app; now right).
      apply removed_moved in K as [c [T [N M]]]. destruct (moved_added c T M) as [i I].
      destruct (existsb (fun r => Nat.eqb i (fst r)) m) eqn:E.
      - apply existsb_exists in E as [[j [b r]] [J E]]. cbn [fst] in E. apply PeanoNat.Nat.eqb_eq in E. subst j.
        destruct (pairs _ _ _ J) as [A [Rf [Mr ->]]].
        assert (X : column_by ren r = column_by ren c).
        { apply filter_In in A as [A _], I as [I _]. apply with_pos_nth in A, I. congruence. }
        assert (Y : r = c).
        { apply Ta; try assumption. pose proof (alike_self comments (ren (c_name r)) r) as Q1. pose proof (alike_self comments (ren (c_name c)) c) as Q2.
          change (alike comments (column_by ren r) r) in Q1. change (alike comments (column_by ren c) c) in Q2. rewrite X in Q1.
          unfold alike in *. intuition congruence. }
        subst r. pose proof (Permutation_NoDup P Dr) as D. apply in_split in In_rest as [l1 [l2 Er]].
        rewrite Er, app_assoc in D. apply (NoDup_remove_2 _ _ _ D). apply in_or_app. left. apply in_or_app. left. rewrite <- N.
        apply in_map_iff. now exists (i, (column_by ren c, c)).
      - assert (Z : same (column_by ren c) c = false).
        { eapply (find_renamed_maximal _ _ _ lookup_names added removed m rest Dr Fd i); [exact I| |exact In_rest|].
          - intros b r J. apply Bool.not_true_iff_false in E. apply E. apply existsb_exists. exists (i, (b, r)). split; [exact J|].
            apply PeanoNat.Nat.eqb_refl.
          - rewrite <- N. now apply column_name_map_nodup. }
        apply Bool.not_true_iff_false in Z. apply Z. apply alike_spec. apply alike_self.
    Qed.
    Lemma names_found : forall v, In v (t_cols t) -> column_moved ren v = true -> exists i, In (i, (column_by ren v, v)) m.
    Proof.
      intros v V M. destruct (find_renamed_spec _ _ _ lookup_names _ _ _ _ Dr Fd) as [_ [P _]]. rewrite none_left, app_nil_r in P.
      assert (K : In (c_name v) removed) by (apply removed_moved; eauto).
      apply (Permutation_in _ P) in K. apply in_map_iff in K as [[i [b r]] [N I]]. cbn [snd] in N.
      destruct (pairs _ _ _ I) as [_ [Rf [_ ->]]]. rewrite (by_name r v Rf V N) in I. eauto.
    Qed.
    Lemma none_new : filter (fun ia => negb (existsb (fun r => Nat.eqb (fst ia) (fst r)) m)) added = [].
    Proof.
      destruct (filter _ added) as [|[i a] l] eqn:E; [reflexivity|]. exfalso.
      assert (I : In (i, a) ((i, a) :: l)) by now left. rewrite <- E in I. apply filter_In in I as [I N]. cbn [fst] in N.
      destruct (added_moved i a I) as [v [V [-> M]]]. destruct (names_found v V M) as [j J].
      destruct (pairs _ _ _ J) as [A _]. unfold added in I, A. apply filter_In in I as [I _], A as [A _].
      rewrite (at_once _ _ _ I A) in N. apply negb_true_iff in N. apply Bool.not_true_iff_false in N. apply N.
      apply existsb_exists. exists (j, (column_by ren v, v)). split; [exact J|]. apply PeanoNat.Nat.eqb_refl.
    Qed.
    Lemma found_all : Permutation (map (fun r => snd (snd r)) m) (filter (column_moved ren) (t_cols t)).
    Proof.
      destruct (find_renamed_spec _ _ _ lookup_names _ _ _ _ Dr Fd) as [_ [P _]]. rewrite none_left, app_nil_r in P.
      apply NoDup_Permutation.
      - apply (NoDup_map_inv c_name). rewrite map_map. exact (Permutation_NoDup P Dr).
      - apply NoDup_filter. exact (NoDup_map_inv _ _ Df).
      - intros c. rewrite filter_In, in_map_iff. split.
        + intros [[i [a r]] [<- I]]. now destruct (pairs _ _ _ I) as [_ [? [? _]]].
        + intros [T M]. destruct (names_found c T M) as [i I]. exists (i, (column_by ren c, c)). now split.
    Qed.
  End Found.

  Lemma scan_kept : forall {CS} (dc : ident -> column -> column -> option (list CS * ident)) ts id removed,
    (forall id c, dc id c c = Some ([], id)) -> (forall i c, In (i, c) ts -> In c (t_cols t')) ->
    exists r added, scan_columns dc (t_cols t) ts id removed = Some ([], id, r, added).
  Proof.
    intros CS dc ts id. induction ts as [|[i c] ts IH]; intros removed Self H; [cbn; eauto|]. cbn [scan_columns].
    assert (H' : forall j u, In (j, u) ts -> In u (t_cols t')) by (intros j u J; apply (H j); now right).
    destruct (column_name_map (t_cols t) (c_name c)) as [old|] eqn:L.
    - assert (E : c = old).
      { destruct (to_from c (H i c (or_introl eq_refl))) as [v [V ->]]. apply column_name_map_some in L as [L N].
        destruct (column_moved ren v) eqn:M; [exfalso; apply (proj2 (new_moved v V) M); rewrite <- N; now apply in_map|].
        rewrite (moved_not _ M) in *. now apply by_name. }
      subst old. rewrite Self. destruct (IH (ss_remove removed (c_name c)) Self H') as [r [added ->]]. eauto.
    - destruct (IH removed Self H') as [r [added E]]. rewrite E. eauto.
  Qed.
  (** what both comparisons of the table have found when the columns have been looked at *)
  Lemma columns_found : forall {CS} (dc : ident -> column -> column -> option (list CS * ident)) id, (forall id c, dc id c c = Some ([], id)) ->
    exists r added m, scan_columns dc (t_cols t) (with_pos (t_cols t')) id (ss_new (map c_name (t_cols t))) = Some ([], id, r, added) /\
      find_renamed (column_name_map (t_cols t)) (fun a r => is_renamed a r (negb comments)) added r = (m, []) /\
      filter (fun ia => negb (existsb (fun r => Nat.eqb (fst ia) (fst r)) m)) added = [] /\
      Permutation (map (fun r => snd (snd r)) m) (filter (column_moved ren) (t_cols t)) /\
      (forall x, In x m -> fst (snd x) = column_by ren (snd (snd x))).
  Proof.
    intros CS dc id Self. destruct (scan_kept dc (with_pos (t_cols t')) id (ss_new (map c_name (t_cols t))) Self) as [r [added E]].
    { intros i c I. apply with_pos_in. eauto. }
    destruct (scan_columns_spec _ _ _ _ _ _ _ _ _ E) as [_ [A [K N]]]. specialize (N (ss_new_nodup _)).
    assert (Rm : forall k, In k r <-> In k (map c_name (t_cols t)) /\ ~ In k (map c_name (t_cols t'))).
    { intros k. rewrite K, ss_new_in. rewrite <- (with_pos_snd (t_cols t')) at 2. rewrite map_map. tauto. }
    subst added. destruct (find_renamed (column_name_map (t_cols t)) (fun a r => is_renamed a r (negb comments)) (filter (is_added_col (t_cols t)) (with_pos (t_cols t'))) r)
      as [m rest] eqn:Fd.
    exists r, (filter (is_added_col (t_cols t)) (with_pos (t_cols t'))), m. rewrite (none_left r m rest N Rm Fd) in Fd.
    split; [exact E|]. split; [exact Fd|]. split; [exact (none_new r m [] N Rm Fd)|]. split; [exact (found_all r m [] N Rm Fd)|].
    intros [i [a c]] I. now destruct (pairs r m [] N Rm Fd i a c I) as [_ [_ [_ ?]]].
  Qed.

  Lemma marked : forall (mark : column -> bool) set set', (forall c, mark (column_by ren c) = mark c) ->
    NoDup set -> NoDup set' ->
    (forall k, In k set <-> exists c, In c (t_cols t) /\ mark c = true /\ c_name c = k) ->
    (forall k, In k set' <-> exists c, In c (t_cols t') /\ mark c = true /\ c_name c = k) ->
    negb (ss_equals set' set) = existsb (fun c => column_moved ren c && mark c) (t_cols t) /\
    (existsb (fun c => column_moved ren c && mark c) (t_cols t) = true -> Nat.ltb 0 (ss_size set) = true /\ Nat.ltb 0 (ss_size set') = true).
  Proof.
    intros mark set set' B D D' S S'.
    assert (Sz : forall (l : sset) k, In k l -> Nat.ltb 0 (ss_size l) = true) by (intros [|x l] k; [intros []|reflexivity]).
    split.
    - destruct (existsb (fun c => column_moved ren c && mark c) (t_cols t)) eqn:E.
      + apply existsb_exists in E as [c [I E]]. apply andb_true_iff in E as [M P]. apply negb_true_iff. apply Bool.not_true_iff_false. intros X.
        apply (ss_equals_same _ _ D' D) with (k := c_name c) in X. destruct X as [_ X].
        assert (Y : In (c_name c) set') by (apply X, S; eauto). apply S' in Y as [u [U [_ N]]].
        apply (proj2 (gone_moved c I) M). rewrite <- N. now apply in_map.
      + apply negb_false_iff. apply (ss_equals_same _ _ D' D). intros k. rewrite S, S'.
        assert (Q : forall v, In v (t_cols t) -> mark v = true -> column_by ren v = v).
        { intros v V P. apply moved_not. destruct (column_moved ren v) eqn:M; [|reflexivity]. apply Bool.not_true_iff_false in E. exfalso. apply E.
          apply existsb_exists. exists v. split; [exact V|]. now rewrite M, P. }
        split.
        * intros [u [U [P N]]]. destruct (to_from u U) as [v [V ->]]. rewrite B in P. rewrite (Q v V P) in N. eauto.
        * intros [v [V [P N]]]. exists v. split; [|now split]. rewrite <- (Q v V P). now apply from_to.
    - intros E. apply existsb_exists in E as [c [I E]]. apply andb_true_iff in E as [M P]. split.
      + apply (Sz set (c_name c)). apply S. eauto.
      + apply (Sz set' (c_name (column_by ren c))). apply S'. exists (column_by ren c). split; [now apply from_to|]. split; [now rewrite B|reflexivity].
  Qed.

  Lemma emit_changes : forall author b ch st, flat_map cs_changes (fst (emit author b ch st)) = (flat_map cs_changes (fst st) ++ if b then [ch] else [])%list.
  Proof. intros author [] ch st; unfold emit; [|now rewrite app_nil_r]. cbn [fst]. rewrite flat_map_app. reflexivity. Qed.
  Lemma emits_changes : forall author (g : nat * (column * column) -> change) l st,
    flat_map cs_changes (fst (fold_left (fun st r => emit author true (g r) st) l st)) = (flat_map cs_changes (fst st) ++ map g l)%list.
  Proof.
    intros author g l. induction l as [|x l IH]; intros st; cbn [fold_left map]; [now rewrite app_nil_r|].
    rewrite IH, emit_changes. now rewrite <- app_assoc.
  Qed.

  Lemma report_table : forall author suffix ord id, iteration_order ord ->
    exists css id', diff_table author comments suffix ord id t' t = Some (css, id') /\ table_renaming suffix ren t t' (flat_map cs_changes css).
  Proof.
    intros author suffix ord id O. unfold diff_table. destruct R as [N [Ds P]]. rewrite Ds, String.eqb_refl. cbn [negb]. rewrite andb_false_r. cbn [emit].
    destruct (columns_found (fun id c o => Some (diff_column author comments t' id c o)) id) as [r [added [m [-> [F [W [Q A]]]]]]].
    { intros. now rewrite diff_column_self. }
    rewrite F. change (ss_slice []) with (@nil string). cbn [fold_left]. unfold not_renamed. rewrite W. cbn [map].
    destruct (marked c_pk (pk_name_set t) (pk_name_set t') (fun _ => eq_refl) (pk_name_set_nodup t) (pk_name_set_nodup t') (pk_name_set_in t) (pk_name_set_in t')) as [Ek _].
    destruct (marked c_uq (uq_name_set t) (uq_name_set t') (fun _ => eq_refl) (uq_name_set_nodup t) (uq_name_set_nodup t') (uq_name_set_in t) (uq_name_set_in t')) as [Eu Z].
    eexists. eexists. split; [rewrite <- surjective_pairing; reflexivity|]. rewrite Ek, Eu, !emit_changes, (emits_changes author (fun r => RenameColumn t' (snd (snd r)) (fst (snd r)))), emit_changes. cbn [fst app flat_map].
    exists (map (fun r => snd (snd r)) (ord m)). split; [eapply Permutation_trans; [apply Permutation_map, O|exact Q]|].
    fold (unique_moved ren t) in *. fold (key_moved ren t). rewrite N.
    assert (M : map (fun r => RenameColumn t' (snd (snd r)) (fst (snd r))) (ord m) = map (fun c => RenameColumn t' c (column_by ren c)) (map (fun r => snd (snd r)) (ord m))).
    { rewrite map_map. apply map_ext_in. intros x I. rewrite (A x); [reflexivity|]. now apply (Permutation_in _ (O m)). }
    rewrite M. destruct (unique_moved ren t); cbn [andb].
    - destruct (Z eq_refl) as [-> ->]. cbn [app]. now rewrite <- !app_assoc.
    - cbn [app]. now rewrite <- !app_assoc.
  Qed.

  Lemma lq_emit_changes : forall author b pre chs st,
    flat_map lq_changes (fst (lq_emit author b pre chs st)) = (flat_map lq_changes (fst st) ++ if b then chs else [])%list.
  Proof. intros author [] pre chs st; unfold lq_emit; [|now rewrite app_nil_r]. cbn [fst]. rewrite flat_map_app. cbn. now rewrite app_nil_r. Qed.
  Lemma lq_renames_changes : forall author u l st,
    flat_map lq_changes (fst (fold_left (lq_rename_column author u) l st)) =
    (flat_map lq_changes (fst st) ++ flat_map (fun r => LqRenameColumn (t_name u) (c_name (fst (snd r))) (c_name (snd (snd r))) (get_liquibase_type (fst (snd r))) ::
       (if c_notnull (snd (snd r)) then [LqAddNotNullConstraint (t_name u) (c_name (fst (snd r))) (get_liquibase_type (fst (snd r))) (c_default (fst (snd r)))] else [])) l)%list.
  Proof.
    intros author u l. induction l as [|x l IH]; intros st; cbn [fold_left flat_map]; [now rewrite app_nil_r|].
    rewrite IH. unfold lq_rename_column. rewrite !lq_emit_changes. cbn [app]. now rewrite <- !app_assoc.
  Qed.
  Lemma log_table : forall float author suffix ord id, iteration_order ord ->
    exists css id', lq_diff_table float author comments suffix ord id t' t = Some (css, id') /\ log_renaming suffix ren t t' (flat_map lq_changes css).
  Proof.
    intros float author suffix ord id O. unfold lq_diff_table. destruct R as [N [Ds P]]. rewrite Ds, String.eqb_refl. cbn [negb]. rewrite andb_false_r. cbn [lq_emit].
    destruct (columns_found (lq_diff_column float author comments t') id) as [r [added [m [-> [F [W [Q A]]]]]]].
    { intros. now rewrite lq_diff_column_self. }
    rewrite F. change (ss_slice []) with (@nil string). cbn [fold_left]. rewrite W.
    destruct (marked c_pk (pk_name_set t) (pk_name_set t') (fun _ => eq_refl) (pk_name_set_nodup t) (pk_name_set_nodup t') (pk_name_set_in t) (pk_name_set_in t')) as [Ek Zk].
    destruct (marked c_uq (uq_name_set t) (uq_name_set t') (fun _ => eq_refl) (uq_name_set_nodup t) (uq_name_set_nodup t') (uq_name_set_in t) (uq_name_set_in t')) as [Eu Z].
    eexists. eexists. split; [rewrite <- surjective_pairing; reflexivity|]. rewrite Ek, Eu, !lq_emit_changes, lq_renames_changes, lq_emit_changes. cbn [fst app flat_map].
    exists (map (fun r => snd (snd r)) (ord m)), (ss_slice (pk_name_set t')), (ss_slice (uq_name_set t')).
    split; [eapply Permutation_trans; [apply Permutation_map, O|exact Q]|].
    split; [split; [eapply Permutation_NoDup; [apply Permutation_sym, ss_slice_perm|apply pk_name_set_nodup]|intros n; rewrite ss_slice_in; apply pk_name_set_in]|].
    split; [split; [eapply Permutation_NoDup; [apply Permutation_sym, ss_slice_perm|apply uq_name_set_nodup]|intros n; rewrite ss_slice_in; apply uq_name_set_in]|].
    fold (unique_moved ren t) in *. fold (key_moved ren t) in *. rewrite N.
    assert (M : flat_map (fun r => LqRenameColumn (t_name t) (c_name (fst (snd r))) (c_name (snd (snd r))) (get_liquibase_type (fst (snd r))) ::
         (if c_notnull (snd (snd r)) then [LqAddNotNullConstraint (t_name t) (c_name (fst (snd r))) (get_liquibase_type (fst (snd r))) (c_default (fst (snd r)))] else [])) (ord m) =
       flat_map (fun c => LqRenameColumn (t_name t) (ren (c_name c)) (c_name c) (get_liquibase_type c) ::
           (if c_notnull c then [LqAddNotNullConstraint (t_name t) (ren (c_name c)) (get_liquibase_type c) (c_default c)] else [])) (map (fun r => snd (snd r)) (ord m))).
    { assert (A' : forall x, In x (ord m) -> fst (snd x) = column_by ren (snd (snd x))) by (intros x I; apply A; now apply (Permutation_in _ (O m))).
      clear -A'. induction (ord m) as [|x l IH]; [reflexivity|]. cbn [flat_map map]. rewrite (A' x (or_introl eq_refl)), IH by (intros y J; apply A'; now right). reflexivity. }
    rewrite M. rewrite <- !app_assoc. f_equal. f_equal. f_equal.
    - destruct (key_moved ren t); [|reflexivity]. destruct (Zk eq_refl) as [-> ->]. reflexivity.
    - destruct (unique_moved ren t); [|reflexivity]. destruct (Z eq_refl) as [_ ->]. reflexivity.
  Qed.
End Renames.

(** ** The schemas *)
Lemma scan_pairs : forall {CS CH} (chg : CS -> list CH) (good : table -> table -> list CH -> Prop) dt f from ts ts',
  Forall2 (fun t t' => passes f t' = true /\ tables_by_name from (t_name t') = Some t /\
    forall i id, exists css id', dt i id t' t = Some (css, id') /\ good t t' (flat_map chg css)) ts ts' ->
  forall k id removed, exists css id' r chs,
    scan_tables dt f from (combine (seq k (length ts')) ts') id removed = Some (css, id', r, []) /\
    flat_map chg css = concat chs /\ Forall2 (fun p => good (fst p) (snd p)) (combine ts ts') chs /\
    (forall n, In n r -> In n removed /\ ~ In n (map t_name ts')).
Proof.
  intros CS CH chg good dt f from ts ts' F. induction F as [|t t' ts ts' [P [L H]] F IH]; intros k id removed; cbn [length seq combine scan_tables].
  - exists [], id, removed, []. split; [reflexivity|]. split; [reflexivity|]. split; [constructor|]. intros n I. split; [exact I|intros []].
  - rewrite P, L. cbn [negb]. destruct (H k (bump_major id)) as [c0 [i0 [-> G]]].
    destruct (IH (S k) (match c0 with [] => revert_major i0 | _ => i0 end) (ss_remove removed (t_name t'))) as [c1 [i1 [r [chs [-> [A [B C]]]]]]].
    exists (c0 ++ c1)%list, i1, r, (flat_map chg c0 :: chs). split; [reflexivity|]. split; [now rewrite flat_map_app, A|].
    split; [now constructor|]. intros n J. destruct (C n J) as [Y Z]. apply ss_remove_in in Y as [Y1 Y2]. split; [exact Y1|].
    cbn [map]. intros [V|V]; [congruence|contradiction].
Qed.
Lemma diff_pairs : forall {CS CH} (chg : CS -> list CH) (good : table -> table -> list CH -> Prop) dt drop_cs rename_cs create_cs ordT f from to,
  iteration_order ordT -> map t_name (s_tables to) = map t_name (s_tables from) ->
  Forall2 (fun t t' => passes f t' = true /\ tables_by_name (s_tables from) (t_name t') = Some t /\
    forall i id, exists css id', dt i id t' t = Some (css, id') /\ good t t' (flat_map chg css)) (s_tables from) (s_tables to) ->
  exists css chs, diff_schemas dt drop_cs rename_cs create_cs ordT f from to = Some css /\ flat_map chg css = concat chs /\
    Forall2 (fun p => good (fst p) (snd p)) (combine (s_tables from) (s_tables to)) chs.
Proof.
  intros CS CH chg good dt drop_cs rename_cs create_cs ordT f from to HT N F. unfold diff_schemas.
  destruct (scan_pairs chg good dt f (s_tables from) _ _ F 0 new_id (ss_new (map t_name (s_tables from)))) as [css [id' [r [chs [E [A [B R]]]]]]].
  unfold with_pos. rewrite E.
  assert (r = []) as ->.
  { destruct r as [|n r]; [reflexivity|]. destruct (R n (or_introl eq_refl)) as [X Y]. apply (proj1 (ss_new_in _ _)) in X.
    rewrite N in Y. contradiction. }
  cbn [find_renamed]. change (ss_slice []) with (@nil string). cbn [drop_tables].
  assert (O : ordT [] = []) by (apply Permutation_nil; symmetry; apply HT). rewrite O.
  cbn. rewrite app_nil_r. exists css, chs. now split.
Qed.
Lemma weaker : forall {A B} (Q Q' : A -> B -> Prop) l l', (forall x y, Q x y -> Q' x y) -> Forall2 Q l l' -> Forall2 Q' l l'.
Proof. intros A B Q Q' l l' I H. induction H; constructor; auto. Qed.
Lemma in_pairs : forall {A B} (P : A -> B -> Prop) l l', Forall2 P l l' -> Forall2 (fun a b => In a l /\ In b l' /\ P a b) l l'.
Proof.
  intros A B P l l' F. induction F as [|a b l l' H F IH]; constructor; [repeat split; [now left|now left|exact H]|].
  eapply weaker; [|exact IH]. cbn beta. intros x y [X [Y Z]]. split; [now right|]. split; [now right|exact Z].
Qed.
Lemma same_names : forall (rens : string -> string -> string) ts ts', Forall2 (fun t t' => columns_renamed (rens (t_name t)) t t') ts ts' -> map t_name ts' = map t_name ts.
Proof. intros rens ts ts' F. induction F as [|t t' ts ts' [N _] F IH]; [reflexivity|]. cbn [map]. now rewrite N, IH. Qed.

Lemma report_columns : forall rens ordT ordC o from to, iteration_order ordT -> (forall i, iteration_order (ordC i)) ->
  Forall2 (fun t t' => columns_renamed (rens (t_name t)) t t') (s_tables from) (s_tables to) ->
  (forall t, In t (s_tables from) -> fresh_columns (rens (t_name t)) t /\ columns_apart (do_comments o) (rens (t_name t)) t) ->
  distinct_names from -> distinct_names to -> (forall t, In t (s_tables to) -> selected (do_filter o) t) ->
  exists css chs, get_diff ordT ordC o from to = Some css /\ all_changes css = concat chs /\
    Forall2 (fun p => table_renaming (do_suffix o) (rens (t_name (fst p))) (fst p) (snd p)) (combine (s_tables from) (s_tables to)) chs.
Proof.
  intros rens ordT ordC o from to OT OC F H [Df Dfc] [Dt Dtc] Sl.
  refine (diff_pairs cs_changes (fun t t' => table_renaming (do_suffix o) (rens (t_name t)) t t') _ _ _ _ ordT _ from to OT (same_names rens _ _ F) _).
  eapply weaker; [|exact (in_pairs _ _ _ F)]. cbn beta. intros t t' [I [J C]]. destruct (H t I) as [Fr Ta].
  split; [now apply passes_selected, Sl|]. split; [destruct C as [-> _]; now apply tables_by_name_nodup|].
  intros i id. apply report_table; auto.
Qed.
Lemma log_columns : forall float rens ordT ordC o from to, iteration_order ordT -> (forall i, iteration_order (ordC i)) ->
  Forall2 (fun t t' => columns_renamed (rens (t_name t)) t t') (s_tables from) (s_tables to) ->
  (forall t, In t (s_tables from) -> fresh_columns (rens (t_name t)) t /\ columns_apart (lo_comments o) (rens (t_name t)) t) ->
  distinct_names from -> distinct_names to -> (forall t, In t (s_tables to) -> selected (lo_filter o) t) ->
  exists css chs, lq_diff float ordT ordC o from to = Some css /\ flat_map lq_changes css = concat chs /\
    Forall2 (fun p => log_renaming (lo_suffix o) (rens (t_name (fst p))) (fst p) (snd p)) (combine (s_tables from) (s_tables to)) chs.
Proof.
  intros float rens ordT ordC o from to OT OC F H [Df Dfc] [Dt Dtc] Sl.
  refine (diff_pairs lq_changes (fun t t' => log_renaming (lo_suffix o) (rens (t_name t)) t t') _ _ _ _ ordT _ from to OT (same_names rens _ _ F) _).
  eapply weaker; [|exact (in_pairs _ _ _ F)]. cbn beta. intros t t' [I [J C]]. destruct (H t I) as [Fr Ta].
  split; [now apply passes_selected, Sl|]. split; [destruct C as [-> _]; now apply tables_by_name_nodup|].
  intros i id. apply log_table; auto.
Qed.
