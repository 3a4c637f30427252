(** Comparisons of schemas whose tables have got other names (C149) *)
From Coq Require Import String Ascii List NArith Bool Lia Sorting.Permutation.
From Verif.Model Require Import GoString Util Octopus DiffCore Diff Liquibase.
From Verif.Spec Require Import DiffSpec RenameSpec.
From Verif.Proofs Require Import StringLemmas OctopusProofs DiffCoreProofs DiffFacts LiquibaseProofs Agree.
Import ListNotations.
Local Open Scope string_scope.

Section Renames.
  Variables (ren : string -> string) (from to : schema).
  Hypothesis (R : only_renamed ren from to) (Fr : fresh_names ren from) (Ta : told_apart ren from)
    (Df : NoDup (map t_name (s_tables from))) (Dt : NoDup (map t_name (s_tables to))).

  Lemma moved_not : forall t, moved ren t = false -> renamed_by ren t = t.
  Proof.
    intros t M. unfold moved in M. apply negb_false_iff, String.eqb_eq in M. unfold renamed_by, called. rewrite M. now destruct t.
  Qed.
  Lemma moved_ne : forall t, moved ren t = true <-> ren (t_name t) <> t_name t.
  Proof. intros t. unfold moved. rewrite negb_true_iff, String.eqb_neq. reflexivity. Qed.
  Lemma to_from : forall u, In u (s_tables to) -> exists v, In v (s_tables from) /\ u = renamed_by ren v.
  Proof. intros u I. apply (Permutation_in _ R) in I. apply in_map_iff in I as [v [<- I]]. eauto. Qed.
  Lemma from_to : forall v, In v (s_tables from) -> In (renamed_by ren v) (s_tables to).
  Proof. intros v I. apply (Permutation_in _ (Permutation_sym R)). now apply in_map. Qed.
  Lemma by_name : forall t u, In t (s_tables from) -> In u (s_tables from) -> t_name t = t_name u -> t = u.
  Proof.
    intros t u T U E. pose proof (tables_by_name_nodup _ _ Df T) as A. pose proof (tables_by_name_nodup _ _ Df U) as B. congruence.
  Qed.
  Lemma new_moved : forall v, In v (s_tables from) -> (~ In (t_name (renamed_by ren v)) (map t_name (s_tables from)) <-> moved ren v = true).
  Proof.
    intros v I. split; [|apply Fr; exact I]. intros N. destruct (moved ren v) eqn:M; [reflexivity|]. exfalso. apply N.
    rewrite (moved_not _ M). now apply in_map.
  Qed.
  Lemma gone_moved : forall t, In t (s_tables from) ->
    (~ (exists u, In u (s_tables to) /\ t_name u = t_name t) <-> moved ren t = true).
  Proof.
    intros t T. split.
    - intros N. destruct (moved ren t) eqn:M; [reflexivity|]. exfalso. apply N. exists t. split; [|reflexivity].
      rewrite <- (moved_not _ M). now apply from_to.
    - intros M [u [U E]]. destruct (to_from u U) as [v [V ->]]. destruct (moved ren v) eqn:MV.
      + apply (Fr v V MV). cbn in E. rewrite E. now apply in_map.
      + rewrite (moved_not _ MV) in E. rewrite (by_name v t V T E) in MV. congruence.
  Qed.
  Lemma at_once : forall i j a, In (i, a) (with_pos (s_tables to)) -> In (j, a) (with_pos (s_tables to)) -> i = j.
  Proof.
    intros i j a I J. apply with_pos_nth in I, J.
    apply (proj1 (NoDup_nth_error (map t_name (s_tables to))) Dt).
    - apply nth_error_Some. rewrite (map_nth_error t_name i _ I). discriminate.
    - now rewrite (map_nth_error t_name i _ I), (map_nth_error t_name j _ J).
  Qed.

  Section Found.
    Variables (f : option (table -> bool)) (removed : sset) (m : list (nat * (table * table))) (rest : sset).
    Let added := filter (is_added f (s_tables from)) (with_pos (s_tables to)).
    Hypothesis (Sel : forall t, In t (s_tables to) -> passes f t = true) (Dr : NoDup removed)
      (Rm : forall k, In k removed <-> In k (map t_name (s_tables from)) /\ ~ (exists u, In u (s_tables to) /\ t_name u = k))
      (Fd : find_renamed (tables_by_name (s_tables from)) same_columns added removed = (m, rest)).

    Lemma removed_moved : forall k, In k removed <-> exists t, In t (s_tables from) /\ t_name t = k /\ moved ren t = true.
    Proof.
      intros k. rewrite Rm. split.
      - intros [I N]. apply in_map_iff in I as [t [<- I]]. exists t. split; [exact I|]. split; [reflexivity|]. now apply gone_moved.
      - intros [t [I [<- M]]]. split; [now apply in_map|]. now apply gone_moved.
    Qed.
    Lemma added_moved : forall i a, In (i, a) added -> exists v, In v (s_tables from) /\ a = renamed_by ren v /\ moved ren v = true.
    Proof.
      intros i a I. unfold added in I. apply filter_In in I as [I K].
      assert (T : In a (s_tables to)) by (apply with_pos_in; eauto). destruct (to_from a T) as [v [V E]]. exists v. split; [exact V|]. split; [exact E|].
      apply new_moved; [exact V|]. rewrite <- E. unfold is_added in K. cbn [snd] in K. apply andb_true_iff in K as [_ K].
      apply negb_true_iff in K. unfold in_names in K. intros X. apply str_in_iff in X. congruence.
    Qed.
    Lemma moved_added : forall v, In v (s_tables from) -> moved ren v = true -> exists i, In (i, renamed_by ren v) added.
    Proof.
      intros v V M. pose proof (from_to v V) as T. apply with_pos_in in T as [i T]. exists i. apply filter_In. split; [exact T|].
      unfold is_added. cbn [snd]. rewrite Sel by now apply from_to. cbn [andb]. apply negb_true_iff. unfold in_names.
      destruct (str_in (t_name (renamed_by ren v)) (map t_name (s_tables from))) eqn:E; [|reflexivity].
      apply str_in_iff in E. exfalso. now apply (proj2 (new_moved v V) M).
    Qed.
    Lemma lookup_names : forall n r, tables_by_name (s_tables from) n = Some r -> t_name r = n.
    Proof. intros n r L. now apply tables_by_name_some in L as [_ L]. Qed.

    Lemma pairs : forall i a r, In (i, (a, r)) m -> In (i, a) added /\ In r (s_tables from) /\ moved ren r = true /\ a = renamed_by ren r.
    Proof.
      intros i a r I. destruct (find_renamed_spec _ _ _ lookup_names _ _ _ _ Dr Fd) as [_ [P [C _]]].
      destruct (C _ _ _ I) as [A [L E]]. apply (list_eqb_spec column_eqb column_eqb_spec) in E.
      assert (K : In (t_name r) removed).
      { apply (Permutation_in _ (Permutation_sym P)). apply in_or_app. left. apply in_map_iff. now exists (i, (a, r)). }
      apply removed_moved in K as [t [T [N M]]]. apply tables_by_name_some in L as [L _].
      rewrite (by_name t r T L N) in M. destruct (added_moved i a A) as [v [V [-> MV]]].
      assert (X : v = r) by (apply Ta; assumption). subst v. auto.
    Qed.
    Lemma none_left : rest = [].
    Proof.
      destruct (find_renamed_spec _ _ _ lookup_names _ _ _ _ Dr Fd) as [_ [P _]].
      assert (No : forall n, ~ In n rest); [|destruct rest as [|n rest']; [reflexivity|destruct (No n); now left]]. intros n In_rest.
      assert (K : In n removed) by (apply (Permutation_in _ (Permutation_sym P)), in_or_app; now right).
      apply removed_moved in K as [t [T [N M]]]. destruct (moved_added t T M) as [i I].
      destruct (existsb (fun r => Nat.eqb i (fst r)) m) eqn:E.
      - apply existsb_exists in E as [[j [b r]] [J E]]. cbn [fst] in E. apply PeanoNat.Nat.eqb_eq in E. subst j.
        destruct (pairs _ _ _ J) as [A [Rf [Mr ->]]].
        assert (X : renamed_by ren r = renamed_by ren t).
        { apply filter_In in A as [A _], I as [I _]. apply with_pos_nth in A, I. congruence. }
        assert (Y : r = t).
        { apply Ta; try assumption. unfold renamed_by, called in X. now injection X. }
        subst r. pose proof (Permutation_NoDup P Dr) as D. apply in_split in In_rest as [l1 [l2 Er]].
        rewrite Er, app_assoc in D. apply (NoDup_remove_2 _ _ _ D). apply in_or_app. left. apply in_or_app. left. rewrite <- N.
        apply in_map_iff. now exists (i, (renamed_by ren t, t)).
      - assert (Z : same_columns (renamed_by ren t) t = false).
        { eapply (find_renamed_maximal _ _ _ lookup_names added removed m rest Dr Fd i); [exact I| |exact In_rest|].
          - intros b r J. apply Bool.not_true_iff_false in E. apply E. apply existsb_exists. exists (i, (b, r)). split; [exact J|].
            apply PeanoNat.Nat.eqb_refl.
          - rewrite <- N. now apply tables_by_name_nodup. }
        apply Bool.not_true_iff_false in Z. apply Z. now apply (list_eqb_spec column_eqb column_eqb_spec).
    Qed.
    Lemma names_found : forall v, In v (s_tables from) -> moved ren v = true -> exists i, In (i, (renamed_by ren v, v)) m.
    Proof.
      intros v V M. destruct (find_renamed_spec _ _ _ lookup_names _ _ _ _ Dr Fd) as [_ [P _]]. rewrite none_left, app_nil_r in P.
      assert (K : In (t_name v) removed) by (apply removed_moved; eauto).
      apply (Permutation_in _ P) in K. apply in_map_iff in K as [[i [b r]] [N I]]. cbn [snd] in N.
      destruct (pairs _ _ _ I) as [_ [Rf [_ ->]]]. rewrite (by_name r v Rf V N) in I. eauto.
    Qed.
    Lemma none_new : not_renamed added m = [].
    Proof.
      unfold not_renamed. destruct (filter _ added) as [|[i a] l] eqn:E; [reflexivity|]. exfalso.
      assert (I : In (i, a) ((i, a) :: l)) by now left. rewrite <- E in I. apply filter_In in I as [I N]. cbn [fst] in N.
      destruct (added_moved i a I) as [v [V [-> M]]]. destruct (names_found v V M) as [j J].
      destruct (pairs _ _ _ J) as [A _]. unfold added in I, A. apply filter_In in I as [I _], A as [A _].
      rewrite (at_once _ _ _ I A) in N. apply negb_true_iff in N. apply Bool.not_true_iff_false in N. apply N.
      apply existsb_exists. exists (j, (renamed_by ren v, v)). split; [exact J|]. apply PeanoNat.Nat.eqb_refl.
    Qed.
    Lemma found_all : Permutation (map (fun r => snd (snd r)) m) (filter (moved ren) (s_tables from)).
    Proof.
      destruct (find_renamed_spec _ _ _ lookup_names _ _ _ _ Dr Fd) as [_ [P _]]. rewrite none_left, app_nil_r in P.
      apply NoDup_Permutation.
      - apply (NoDup_map_inv t_name). rewrite map_map. exact (Permutation_NoDup P Dr).
      - apply NoDup_filter. exact (NoDup_map_inv _ _ Df).
      - intros t. rewrite filter_In, in_map_iff. split.
        + intros [[i [a r]] [<- I]]. now destruct (pairs _ _ _ I) as [_ [? [? _]]].
        + intros [T M]. destruct (names_found t T M) as [i I]. exists (i, (renamed_by ren t, t)). now split.
    Qed.
  End Found.

  Section Whole.
    Context {CS CH : Type} (chg : CS -> list CH).
    Variable diff_table : nat -> ident -> table -> table -> option (list CS * ident).
    Variable drop_cs : ident -> string -> table -> CS.
    Variable rename_cs : ident -> table -> table -> list CS * ident.
    Variable create_cs : ident -> table -> option (list CS * ident).
    Variable good : table -> table -> list CH -> Prop.
    Hypothesis (Self : forall i id t, In t (s_tables from) -> exists id', diff_table i id t t = Some ([], id'))
      (Good : forall id nw old, t_cols nw = t_cols old -> good old nw (flat_map chg (fst (rename_cs id nw old)))).

    Lemma scan_kept : forall f ts id removed, (forall i t, In (i, t) ts -> In t (s_tables to)) ->
      exists id' r added, scan_tables diff_table f (s_tables from) ts id removed = Some ([], id', r, added).
    Proof.
      induction ts as [|[i t] ts IH]; intros id removed H; [cbn; eauto|]. cbn [scan_tables].
      assert (H' : forall j u, In (j, u) ts -> In u (s_tables to)) by (intros j u J; apply (H j); now right).
      destruct (passes f t); cbn [negb]; [|now apply IH].
      destruct (tables_by_name (s_tables from) (t_name t)) as [old|] eqn:L.
      - assert (E : t = old).
        { destruct (to_from t (H i t (or_introl eq_refl))) as [v [V ->]]. apply tables_by_name_some in L as [L N].
          destruct (moved ren v) eqn:M; [exfalso; apply (proj2 (new_moved v V) M); rewrite <- N; now apply in_map|].
          rewrite (moved_not _ M) in *. now apply by_name. }
        subst old. apply tables_by_name_some in L as [L _]. destruct (Self i (bump_major id) t L) as [id1 ->].
        destruct (IH (revert_major id1) (ss_remove removed (t_name t)) H') as [id2 [r [added ->]]]. eauto.
      - destruct (IH id (ss_remove removed (t_name t)) H') as [id2 [r [added E]]]; try rewrite E; eauto.
    Qed.
    Lemma rename_all : forall l id, (forall i a r, In (i, (a, r)) l -> a = renamed_by ren r) ->
      exists ch, flat_map chg (fst (rename_tables rename_cs l id)) = concat ch /\
        Forall2 (fun t => good t (renamed_by ren t)) (map (fun r => snd (snd r)) l) ch.
    Proof.
      induction l as [|[i [a r]] l IH]; intros id H; [exists []; split; [reflexivity|constructor]|]. cbn [rename_tables map snd].
      destruct (rename_cs (bump_major id) a r) as [css id1] eqn:E.
      destruct (IH id1) as [ch [F G]]; [intros j b q J; apply (H j); now right|].
      destruct (rename_tables rename_cs l id1) as [css' id2]. cbn [fst] in *. pose proof (H i a r (or_introl eq_refl)) as X. subst a.
      exists (flat_map chg css :: ch). split; [now rewrite flat_map_app, F|]. constructor; [|exact G].
      pose proof (Good (bump_major id) (renamed_by ren r) r eq_refl) as Y. now rewrite E in Y.
    Qed.
    Lemma diff_renamed : forall ord f, iteration_order ord -> (forall t, In t (s_tables to) -> selected f t) ->
      exists css, diff_schemas diff_table drop_cs rename_cs create_cs ord f from to = Some css /\
      exists olds ch, Permutation olds (filter (moved ren) (s_tables from)) /\ flat_map chg css = concat ch /\
        Forall2 (fun t => good t (renamed_by ren t)) olds ch.
    Proof.
      intros ord f O Sl. assert (Sel : forall t, In t (s_tables to) -> passes f t = true) by (intros; now apply passes_selected, Sl).
      unfold diff_schemas. set (removed0 := ss_new (map t_name (s_tables from))).
      destruct (scan_kept f (with_pos (s_tables to)) new_id removed0) as [id1 [removed [added E]]].
      { intros i t I. apply with_pos_in. eauto. }
      rewrite E. destruct (scan_spec diff_table drop_cs rename_cs create_cs _ _ _ _ _ _ _ _ _ E) as [_ [A [K N]]].
      specialize (N (ss_new_nodup _)).
      assert (Rm : forall k, In k removed <-> In k (map t_name (s_tables from)) /\ ~ (exists u, In u (s_tables to) /\ t_name u = k)).
      { intros k. rewrite K. unfold removed0. rewrite ss_new_in. split; intros [X Y]; (split; [exact X|]); intros Z; apply Y.
        - destruct Z as [u [U W]]. apply with_pos_in in U as [i U]. exists (i, u). split; [exact U|]. split; [|exact W].
          apply Sel. apply with_pos_in. eauto.
        - destruct Z as [[i u] [U [_ W]]]. exists u. split; [apply with_pos_in; eauto|exact W]. }
      subst added. destruct (find_renamed (tables_by_name (s_tables from)) same_columns (filter (is_added f (s_tables from)) (with_pos (s_tables to))) removed)
        as [m rest] eqn:Fd.
      rewrite (none_left f removed m rest Sel N Rm Fd). cbn [ss_slice drop_tables].
      destruct (rename_all (ord m) id1) as [ch [F G]].
      { intros i a r I. apply (Permutation_in _ (O m)) in I. now destruct (pairs f removed m rest N Rm Fd i a r I) as [_ [_ [_ ?]]]. }
      change (ss_slice []) with (@nil string). cbn [drop_tables].
      destruct (rename_tables rename_cs (ord m) id1) as [css3 id3]. rewrite (none_new f removed m rest Sel N Rm Fd). cbn [create_tables].
      eexists. split; [reflexivity|]. exists (map (fun r => snd (snd r)) (ord m)), ch. split.
      - eapply Permutation_trans; [apply Permutation_map, O|]. exact (found_all f removed m rest Sel N Rm Fd).
      - cbn [app]. rewrite app_nil_r. now split.
    Qed.
  End Whole.
End Renames.

Lemma some_same : forall t, Nat.ltb 0 (ss_size (uq_name_set t)) = existsb c_uq (t_cols t).
Proof. exact uq_some. Qed.
Lemma uq_cols : forall t u, t_cols t = t_cols u -> uq_name_set t = uq_name_set u.
Proof. intros t u E. unfold uq_name_set. now rewrite E. Qed.

Lemma report_renamed : forall ren ordT ordC o from to, iteration_order ordT -> (forall i, iteration_order (ordC i)) ->
  only_renamed ren from to -> fresh_names ren from -> told_apart ren from -> distinct_names from -> NoDup (map t_name (s_tables to)) ->
  (forall t, In t (s_tables to) -> selected (do_filter o) t) ->
  exists css olds, get_diff ordT ordC o from to = Some css /\ Permutation olds (filter (moved ren) (s_tables from)) /\
    all_changes css = flat_map (fun t => renaming (do_suffix o) t (renamed_by ren t)) olds.
Proof.
  intros ren ordT ordC o from to OT OC R Fr Ta [Df Dc] Dt Sl.
  edestruct (diff_renamed ren from to R Fr Ta Df Dt cs_changes
    (fun i id t old => diff_table (choose_author (do_author o) to) (do_comments o) (do_suffix o) (ordC i) id t old)
    (fun id _ old => mkCS (version id) (choose_author (do_author o) to) [DropTable old])
    (fun id nw old => rename_table_cs (choose_author (do_author o) to) (do_suffix o) id nw old)
    (fun id t => Some ([mkCS (version id) (choose_author (do_author o) to) [CreateTable t]], id))
    (fun old nw ch => ch = renaming (do_suffix o) old nw)) as [css [E [olds [ch [P [F G]]]]]]; [| |exact OT|exact Sl|].
  - intros i id t T. apply diff_table_self; [apply OC|now apply Dc].
  - intros id nw old C. unfold rename_table_cs, renaming, emit. rewrite (uq_cols _ _ C), some_same.
    destruct (existsb c_uq (t_cols old)); reflexivity.
  - exists css, olds. split; [exact E|]. split; [exact P|]. unfold all_changes. rewrite F. clear -G.
    induction G as [|t c olds ch H G IH]; [reflexivity|]. cbn [concat flat_map]. now rewrite H, IH.
Qed.
Lemma log_renamed : forall float ren ordT ordC o from to, iteration_order ordT -> (forall i, iteration_order (ordC i)) ->
  only_renamed ren from to -> fresh_names ren from -> told_apart ren from -> distinct_names from -> NoDup (map t_name (s_tables to)) ->
  (forall t, In t (s_tables to) -> selected (lo_filter o) t) ->
  exists css olds chs, lq_diff float ordT ordC o from to = Some css /\ Permutation olds (filter (moved ren) (s_tables from)) /\
    flat_map lq_changes css = concat chs /\ Forall2 (fun t => rename_log (lo_suffix o) t (renamed_by ren t)) olds chs.
Proof.
  intros float ren ordT ordC o from to OT OC R Fr Ta [Df Dc] Dt Sl.
  edestruct (diff_renamed ren from to R Fr Ta Df Dt lq_changes
    (fun i id t old => lq_diff_table float (choose_author (lo_author o) to) (lo_comments o) (lo_suffix o) (ordC i) id t old)
    (fun id name _ => mkLqCS (version id) (choose_author (lo_author o) to) false [LqDropTable name])
    (fun id nw old => lq_rename_table (choose_author (lo_author o) to) (lo_suffix o) id nw old)
    (fun id t => new_create_table_cs float (choose_author (lo_author o) to) (lo_suffix o) (lo_comments o) id t)
    (rename_log (lo_suffix o))) as [css [E [olds [ch [P [F G]]]]]]; [| |exact OT|exact Sl|].
  - intros i id t T. apply lq_diff_table_self; [apply OC|now apply Dc].
  - intros id nw old C. unfold lq_rename_table, lq_emit. rewrite (uq_cols _ _ C), some_same.
    destruct (existsb c_uq (t_cols old)) eqn:U; [|now apply log_plain].
    apply log_unique; [exact U| |].
    + eapply Permutation_NoDup; [apply Permutation_sym, ss_slice_perm|apply uq_name_set_nodup].
    + intros n. rewrite ss_slice_in. apply uq_name_set_in.
  - exists css, olds, ch. now split.
Qed.
