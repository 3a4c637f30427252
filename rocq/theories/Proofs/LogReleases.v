(** A database that change logs bring from version to version is the one made new *)
From Coq Require Import String Ascii List NArith Bool Sorting.Permutation.
From Verif.Model Require Import GoString Util Octopus Common DiffCore Diff Liquibase Cli.
From Verif.Spec Require Import Order OctopusSpec DiffSpec LiquibaseSpec AgreeSpec CliSpec OptionsSpec GroupSpec EndSpec Database LogReleaseSpec.
From Verif.Proofs Require Import ListLemmas StringLemmas MigrationProofs SchemaMigration DiffFacts Agree CliGroups WiringProofs EndToEnd Releases.
Import ListNotations.
Local Open Scope string_scope.

(** ** What the log says about columns and renamed tables *)
Lemma told_in : forall from log chs ch, tells_all from log chs -> In ch log -> in_both from ch = true ->
  exists part c, In ch part /\ tells part c /\ In c chs.
Proof.
  intros from log chs ch (parts & E & F) I B.
  assert (J : In ch (concat parts)) by (rewrite E; apply filter_In; auto).
  apply in_concat in J as (part & P & J). clear E.
  assert (exists c, tells part c /\ In c (filter in_log chs)) as (c & T & C).
  { revert P. induction F as [|p c ps cs T F IH]; intros P; [destruct P|]. destruct P as [<-|P].
    - exists c. split; [exact T|now left].
    - destruct (IH P) as (c' & T' & C'). exists c'. split; [exact T'|now right]. }
  exists part, c. apply filter_In in C. tauto.
Qed.

Lemma keys_only : forall t keys ch,
  Forall (fun ch => exists k n, ch = LqAddPrimaryKey t k \/ ch = LqAddUniqueConstraint t k n) keys -> In ch keys ->
  exists k n, ch = LqAddPrimaryKey t k \/ ch = LqAddUniqueConstraint t k n.
Proof. intros t keys ch F I. rewrite Forall_forall in F. exact (F ch I). Qed.

Ltac told_cases T J :=
  inversion T; subst; cbn [In app] in J;
  repeat match type of J with
  | _ \/ _ => destruct J as [J|J]
  | In _ (_ ++ _) => apply in_app_or in J
  | In _ (if ?b then _ else _) => destruct b; cbn [In] in J
  | False => destruct J
  end;
  try match goal with F : Forall _ _ |- _ => destruct (keys_only _ _ _ F J) as (? & ? & [?|?]) end;
  try discriminate;
  try match type of J with (if ?b then _ else _) = _ => destruct b; discriminate end.

Lemma drop_told : forall part c tn k, tells part c -> In (LqDropColumn tn k) part -> exists t, c = DropColumn t k /\ t_name t = tn.
Proof. intros part c tn k T J. told_cases T J. injection J as <- <-. eauto. Qed.
Lemma rename_told : forall part c nw old, tells part c -> In (LqRenameTable nw old) part ->
  exists a b, c = RenameTable a b /\ t_name b = nw /\ t_name a = old.
Proof. intros part c nw old T J. told_cases T J. injection J as <- <-. eauto. Qed.

Lemma log_drops : forall float_ok ordT ordC lo from to css t old k,
  lq_diff float_ok ordT ordC lo from to = Some css -> iteration_order ordT -> (forall i, iteration_order (ordC i)) ->
  distinct_names from -> distinct_names to ->
  In t (s_tables to) -> selected (lo_filter lo) t -> In old (s_tables from) -> t_name old = t_name t ->
  In (LqDropColumn (t_name t) k) (lq_all css) -> ~ In k (map c_name (t_cols t)).
Proof.
  intros float_ok ordT ordC lo from to css t old k D HT HC Df Dt T S O N I.
  set (o := mkDiffOption (lo_filter lo) "" (lo_suffix lo) (lo_comments lo)).
  destruct (diffs_agree float_ok ordT ordC o lo from to css HT (proj1 Df) eq_refl eq_refl eq_refl D) as (chs & G & A).
  destruct (told_in _ _ _ _ A I eq_refl) as (part & c & J & Tc & C).
  destruct (drop_told _ _ _ _ Tc J) as (t' & -> & En).
  destruct (columns_gone ordT ordC o from to chs t old G HT HC Df Dt T S O N) as (_ & K & _).
  apply (proj1 (K k)). apply in_flat_map. exists (DropColumn t' k). split; [exact C|]. cbn [gone_columns].
  rewrite En, String.eqb_refl. now left.
Qed.

Lemma log_renames : forall float_ok ordT ordC lo from to css nw old,
  lq_diff float_ok ordT ordC lo from to = Some css -> iteration_order ordT -> (forall i, iteration_order (ordC i)) ->
  NoDup (map t_name (s_tables from)) -> NoDup (map t_name (s_tables to)) -> In nw (s_tables to) -> In old (s_tables from) ->
  In (LqRenameTable (t_name nw) (t_name old)) (lq_all css) ->
  ~ In (t_name nw) (map t_name (s_tables from)) /\ t_cols nw = t_cols old.
Proof.
  intros float_ok ordT ordC lo from to css nw old D HT HC Df Dt T O I.
  set (o := mkDiffOption (lo_filter lo) "" (lo_suffix lo) (lo_comments lo)).
  destruct (diffs_agree float_ok ordT ordC o lo from to css HT Df eq_refl eq_refl eq_refl D) as (chs & G & A).
  destruct (told_in _ _ _ _ A I eq_refl) as (part & c & J & Tc & C).
  destruct (rename_told _ _ _ _ Tc J) as (a & b & -> & En & Eo).
  destruct (renamed_shape _ _ _ _ _ _ _ _ G HT HC C) as (Q1 & _ & Q3 & Q4 & Q5).
  assert (b = nw) as -> by (exact (OctopusProofs.nodup_name_eq t_name _ _ _ Dt Q1 T En)).
  assert (a = old) as -> by (exact (OctopusProofs.nodup_name_eq t_name _ _ _ Df Q4 O Eo)). auto.
Qed.

(** ** One step *)
Lemma log_step : forall w fs sv comments v text a b s, real_world w ->
  run w fs DiffLiquibase v = ([(given v "output", text)], Done) ->
  load_file w fs (given v "from") = Loaded a -> load_file w fs (given v "to") = Loaded b ->
  log_proper (s_tables a) -> log_proper (s_tables b) -> log_follows (w_float_ok w) sv comments (s_tables a) (s_tables b) ->
  given v "groups" = "" -> (comments = true <-> switched_on v "comments") ->
  is_database (has_table (w_float_ok w) comments "") (s_tables a) s ->
  exists css s', text = w_yaml w css /\ run_log sv css s = Some s' /\ is_database (has_table (w_float_ok w) comments "") (s_tables b) s'.
Proof.
  intros w fs sv comments v text a b s W R La Lb [Na Pa] [Nb Pb] [Al Rn] Vg Vc S. destruct W as (_ & _ & HT & HC & _).
  unfold run, action in R. destruct (required_given DiffLiquibase v); [|discriminate R].
  unfold diff_liquibase in R. apply load_both in R as (a' & b' & A & B & R).
  change (load_file w fs (given v "from") = Loaded a') in A. change (load_file w fs (given v "to") = Loaded b') in B.
  assert (a' = a) as -> by congruence. assert (b' = b) as -> by congruence. clear A B.
  match type of R with context [lq_diff _ _ _ ?opt _ _] => set (o := opt) in * end.
  destruct (lq_diff (w_float_ok w) (w_ord_tables w) (w_ord_columns w) o a b) as [css|] eqn:D; [|discriminate R].
  change (written (given v "output") (w_yaml w css) = ([(given v "output", text)], Done)) in R.
  assert (C : comments = lo_comments o).
  { apply Bool.eq_true_iff_eq. rewrite Vc. symmetry. exact (switch_wired DiffLiquibase v "comments" eq_refl). }
  assert (Fo : lo_filter o = get_table_filter "").
  { rewrite <- Vg. reflexivity. }
  assert (Sel : forall t, selected (lo_filter o) t) by (intros t; rewrite Fo; exact I).
  assert (DNa : distinct_names a) by (split; [exact Na|intros t T; apply (Pa t T)]).
  assert (DNb : distinct_names b) by (split; [exact Nb|intros t T; apply (Pb t T)]).
  destruct (lq_diff_leaves (w_float_ok w) sv (w_ord_tables w) (w_ord_columns w) o a b css s D HT HC Na Nb) as (s' & Q & bs & P & F).
  - intros t [T|T]; [apply (Pa t T)|apply (Pb t T)].
  - intros t old T _ O E. destruct (Al t old T O E) as [U1 U2 U3 U4 U5 U6].
    assert (K : forall k, In k (map c_name (t_cols t)) -> ~ In (LqDropColumn (t_name t) k) (lq_all css)).
    { intros k I J. exact (log_drops _ _ _ _ _ _ _ t old k D HT HC DNa DNb T (Sel t) O E J I). }
    constructor; auto.
    + destruct U5 as [U|[U|(k & U & I)]]; [now left|right; now left|]. right. right. exists k. auto.
    + destruct U6 as [U|[(k & I & J)|U]]; [now left| |right; now right]. right. left.
      apply in_map_iff in I as (c & <- & I). exists c. auto.
  - intros t old T O Hc I. rewrite <- C in Hc.
    destruct (log_renames _ _ _ _ _ _ _ _ _ D HT HC Na Nb T O I) as [N E]. exact (Rn t old T O N E Hc).
  - rewrite <- C. exact S.
  - exists css, s'. split; [unfold written in R; congruence|]. split; [exact Q|]. exists bs. split; [exact P|].
    rewrite Fo in F. cbn [select get_table_filter] in F. change (select (get_table_filter "") (s_tables b)) with (s_tables b) in F.
    rewrite <- C in F. cbn [lo_suffix o] in F.
    assert (NL : forall t, In t (s_tables b) -> ~ lone_unique t) by (intros t T; apply (Pb t T)).
    clear - F NL. revert NL. induction F as [|t d ts ds [_ G] F IH]; intros NL; constructor.
    + apply G. apply NL. now left.
    + apply IH. intros t' T. apply NL. now right.
Qed.

(** ** The change log of a file *)
Lemma log_made : forall w fs sv v file comments text s, makes w fs v file comments text ->
  load_file w fs file = Loaded s -> log_proper (s_tables s) ->
  exists css q, text = w_yaml w css /\ run_log sv css [] = Some q /\ is_database (has_table (w_float_ok w) comments "") (s_tables s) q.
Proof.
  intros w fs sv v file comments text s [Vi Vg Vs Vc R] L [N P].
  unfold run, action in R. destruct (required_given GenerateLiquibase v); [|discriminate R].
  unfold generate_liquibase, with_schema in R.
  change (flag_string GenerateLiquibase v "input") with (given v "input") in R. rewrite Vi, L in R.
  match type of R with context [lq_generate _ ?opt _] => set (o := opt) in * end.
  destruct (lq_generate (w_float_ok w) o s) as [css|] eqn:G; [|discriminate R].
  change (written (given v "output") (w_yaml w css) = ([(given v "output", text)], Done)) in R.
  assert (C : comments = lo_comments o).
  { apply Bool.eq_true_iff_eq. rewrite Vc. symmetry. exact (switch_wired GenerateLiquibase v "comments" eq_refl). }
  assert (Fo : lo_filter o = get_table_filter "") by (rewrite <- Vg; reflexivity).
  assert (So : lo_suffix o = "") by (rewrite <- Vs; reflexivity).
  destruct (lq_generate_named (w_float_ok w) sv o s css G) as (bs & Q & F & U).
  { rewrite Fo. exact N. }
  { rewrite Fo. intros t T. exact (proj1 (P t T)). }
  exists css, bs. split; [unfold written in R; congruence|]. split; [exact Q|]. exists bs. split; [reflexivity|].
  rewrite Fo in F, U. change (select (get_table_filter "") (s_tables s)) with (s_tables s) in F, U.
  rewrite So in U. rewrite <- C in F.
  assert (NL : forall t, In t (s_tables s) -> ~ lone_unique t) by (intros t T; apply (P t T)).
  clear - F U NL. revert U NL. induction F as [|t d ts ds B F IH]; intros U NL; constructor.
  - inversion U as [|? ? ? ? [_ X] _]; subst. destruct B as [(B1 & B2 & B3 & B4 & _) _].
    exact (conj B1 (conj B2 (conj B3 (conj B4 (X (NL t (or_introl eq_refl))))))).
  - inversion U; subst. apply IH; [assumption|]. intros t' T. apply NL. now right.
Qed.

(** ** A schema has one database *)
Lemma cols_one : forall fk comments cs ds ds', Forall2 (is_col fk comments) cs ds -> Forall2 (is_col fk comments) cs ds' ->
  Forall2 (same_dbcol comments) ds ds'.
Proof.
  induction cs as [|c cs IH]; intros ds ds' H H'; inversion H as [|? d ? ? D F]; inversion H' as [|? d' ? ? D' F']; subst; constructor; auto.
  destruct D as (D1 & D2 & D3 & D4 & D5 & D6), D' as (E1 & E2 & E3 & E4 & E5 & E6).
  repeat (split; [congruence|]). intros Hc. rewrite (D6 Hc). symmetry. exact (E6 Hc).
Qed.
Lemma table_one : forall fk comments suffix t b b', has_table fk comments suffix t b -> has_table fk comments suffix t b' ->
  same_dbtable comments b b'.
Proof.
  intros fk comments suffix t b b' (N & R & (ds & Pd & Fd) & K & U) (N' & R' & (ds' & Pd' & Fd') & K' & U').
  split; [congruence|]. split; [intros H; rewrite (R H); symmetry; exact (R' H)|]. split; [|split].
  - pose proof (cols_one _ _ _ _ _ Fd Fd') as S. apply Permutation_sym in Pd.
    destruct (Permutation_Forall2 Pd S) as (l & Q & G). exists l. split; [exact (perm_trans Pd' Q)|exact G].
  - intros k. rewrite (K k), (K' k). reflexivity.
  - destruct U as [[E X]|(ks & E & M & X)], U' as [[E' X']|(ks' & E' & M' & X')]; rewrite E, E'; try contradiction; constructor.
    + split; [reflexivity|]. intros k. cbn [snd]. rewrite (M k), (M' k). reflexivity.
    + constructor.
Qed.
Lemma database_one : forall fk comments suffix ts s s', is_database (has_table fk comments suffix) ts s ->
  is_database (has_table fk comments suffix) ts s' -> same_db comments s s'.
Proof.
  intros fk comments suffix ts s s' (bs & P & F) (bs' & P' & F').
  assert (S : Forall2 (same_dbtable comments) bs bs').
  { clear - F F'. revert bs' F'. induction F as [|t b ts bs B F IH]; intros bs' F'; inversion F'; subst; constructor; eauto using table_one. }
  apply Permutation_sym in P. destruct (Permutation_Forall2 P S) as (l & Q & G).
  exists l. split; [exact (perm_trans P' Q)|exact G].
Qed.

(** ** Logs one after the other *)
Lemma log_first : forall w fs sv comments f texts h, log_releases w fs sv comments f texts h ->
  exists s, load_file w fs f = Loaded s /\ log_proper (s_tables s).
Proof. intros w fs sv comments f texts h [? s L P|? ? ? a ? ? ? ? L ? P]; eauto. Qed.

Lemma log_run : forall w fs sv comments f texts h, real_world w -> log_releases w fs sv comments f texts h ->
  forall s, load_file w fs f = Loaded s ->
  exists z, load_file w fs h = Loaded z /\ log_proper (s_tables z) /\
  forall q, is_database (has_table (w_float_ok w) comments "") (s_tables s) q ->
  exists logs q', texts = map (w_yaml w) logs /\ run_logs sv logs q = Some q' /\
    is_database (has_table (w_float_ok w) comments "") (s_tables z) q'.
Proof.
  intros w fs sv comments f texts h W H. induction H as [f s L P|f g h a b v text rest La Lb Pa Fo Vf Vt Vg Vc R H IH]; intros s0 L0.
  - exists s. split; [exact L|]. split; [exact P|]. intros q D. exists [], q. split; [reflexivity|]. split; [reflexivity|].
    assert (s0 = s) as -> by congruence. exact D.
  - assert (s0 = a) as -> by congruence. destruct (IH b Lb) as (z & Lz & Pz & K). exists z. split; [exact Lz|]. split; [exact Pz|].
    intros q D. destruct (log_first _ _ _ _ _ _ _ H) as (b' & Lb' & Pb). assert (b' = b) as -> by congruence.
    rewrite <- Vf in La. rewrite <- Vt in Lb.
    destruct (log_step w fs sv comments v text a b q W R La Lb Pa Pb Fo Vg Vc D) as (css & q1 & E & Q & D1).
    destruct (K q1 D1) as (logs & q' & -> & Rq & Dq). exists (css :: logs), q'. split; [now rewrite E|].
    split; [|exact Dq]. cbn [run_logs]. now rewrite Q.
Qed.

Lemma log_releases_same : forall w fs sv comments first texts last v v' text text', real_world w ->
  log_releases w fs sv comments first texts last ->
  makes w fs v first comments text -> makes w fs v' last comments text' ->
  exists log logs log' start migrated new,
    text = w_yaml w log /\ texts = map (w_yaml w) logs /\ text' = w_yaml w log' /\
    run_log sv log [] = Some start /\ run_logs sv logs start = Some migrated /\ run_log sv log' [] = Some new /\
    same_db comments migrated new.
Proof.
  intros w fs sv comments first texts last v v' text text' W H V V'.
  destruct (log_first _ _ _ _ _ _ _ H) as (s & L & P). destruct (log_run _ _ _ _ _ _ _ W H s L) as (z & Lz & Pz & K).
  destruct (log_made w fs sv v first comments text s V L P) as (log & q & E & Q & D).
  destruct (log_made w fs sv v' last comments text' z V' Lz Pz) as (log' & q' & E' & Q' & D').
  destruct (K q D) as (logs & m & Em & Rm & Dm).
  exists log, logs, log', q, m, q'. repeat (split; [assumption|]). exact (database_one _ _ _ _ _ _ Dm D').
Qed.
