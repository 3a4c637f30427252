(** Values through a sequence of versions (C119) *)
From Coq Require Import String List NArith Bool Sorting.Permutation.
From Verif.Model Require Import GoString Util Octopus DiffCore Liquibase Cli.
From Verif.Spec Require Import DiffSpec LiquibaseSpec CliSpec OptionsSpec EndSpec Database TraceSpec StepSpec.
From Verif.Proofs Require Import StringLemmas CliOptions WiringProofs EndToEnd Trace TraceLog.
Import ListNotations.
Local Open Scope string_scope.

Lemma log_text : forall w fs comments v text a, real_world w ->
  run w fs DiffLiquibase v = ([(given v "output", text)], Done) ->
  load_file w fs (given v "from") = Loaded a -> given v "groups" = "" -> (comments = true <-> switched_on v "comments") ->
  exists b css, load_file w fs (given v "to") = Loaded b /\ text = w_yaml w css /\
    (all_distinct (s_tables a) -> all_distinct (s_tables b) ->
     brings comments (s_tables a) (s_tables b) (trace log_moves (lq_all css))).
Proof.
  intros w fs comments v text a W R La Vg Vc. destruct W as (_ & _ & HT & HC & _).
  unfold run, action in R. destruct (required_given DiffLiquibase v); [|discriminate R].
  unfold diff_liquibase in R. apply load_both in R as (a' & b & A & B & R).
  change (load_file w fs (given v "from") = Loaded a') in A. change (load_file w fs (given v "to") = Loaded b) in B.
  assert (a' = a) as -> by congruence.
  match type of R with context [lq_diff _ _ _ ?opt _ _] => set (o := opt) in * end.
  destruct (lq_diff (w_float_ok w) (w_ord_tables w) (w_ord_columns w) o a b) as [css|] eqn:D; [|discriminate R].
  change (written (given v "output") (w_yaml w css) = ([(given v "output", text)], Done)) in R.
  exists b, css. split; [exact B|]. split; [unfold written in R; congruence|]. intros Da Db.
  assert (C : comments = lo_comments o).
  { apply Bool.eq_true_iff_eq. rewrite Vc. symmetry. exact (switch_wired DiffLiquibase v "comments" eq_refl). }
  assert (Fo : lo_filter o = None).
  { transitivity (get_table_filter (given v "groups")); [reflexivity|now rewrite Vg]. }
  rewrite C. pose proof (log_brings (w_float_ok w) (w_ord_tables w) (w_ord_columns w) o a b css D HT HC Da) as [G _].
  - rewrite Fo. exact Db.
  - rewrite Fo in G. exact G.
Qed.

Lemma steps_head : forall w fs comments f versions texts h, steps w fs comments f versions texts h ->
  exists s rest, load_file w fs f = Loaded s /\ versions = s_tables s :: rest.
Proof. intros w fs comments f versions texts h [? s L|? ? ? a ? ? ? ? L]; eauto. Qed.

Lemma has_dec : forall ts p, {has ts p} + {~ has ts p}.
Proof.
  intros ts [n k]. set (b := existsb (fun t => String.eqb (t_name t) n && existsb (fun c => String.eqb (c_name c) k) (t_cols t)) ts).
  destruct b eqn:B; [left|right]; unfold b in B.
  - apply existsb_exists in B. destruct B as [t [T B]]. apply andb_prop in B. destruct B as [B1 B2]. apply existsb_exists in B2.
    destruct B2 as [c [C1 C2]]. apply String.eqb_eq in B1, C2. subst. exists t, c. auto.
  - intros [t [c [T [C E]]]]. injection E as -> ->.
    assert (X : existsb (fun t0 => String.eqb (t_name t0) (t_name t) && existsb (fun c0 => String.eqb (c_name c0) (c_name c)) (t_cols t0)) ts = true).
    { apply existsb_exists. exists t. split; auto. rewrite String.eqb_refl. apply existsb_exists. exists c. split; auto. apply String.eqb_refl. }
    congruence.
Qed.

Lemma steps_go : forall w fs comments f versions texts h, real_world w ->
  steps w fs comments f versions texts h -> (forall ts, In ts versions -> all_distinct ts) ->
  exists logs, texts = map (w_yaml w) logs /\
    (forall p, (forall ts, In ts versions -> has ts p) -> trace log_moves (all_statements logs) p = Some p) /\
    goes comments versions (trace log_moves (all_statements logs)).
Proof.
  intros w fs comments f versions texts h W H. induction H as [f s L|f g h a v text versions rest L Vf Vt Vg Vc R H IH]; intros D.
  - exists []. split; [reflexivity|]. split; [reflexivity|]. constructor; cbn.
    + intros p q Hp E. injection E as <-. now constructor.
    + intros p p' q _ _ E E'. congruence.
  - destruct IH as [logs [-> [St [G1 G3]]]]; [intros; apply D; now right|].
    destruct (steps_head _ _ _ _ _ _ _ H) as [b [vs [Lb ->]]]. rewrite <- Vf in L.
    destruct (log_text w fs comments v text a W R L Vg Vc) as [b' [css [Lb' [-> B]]]]. rewrite Vt in Lb'.
    assert (b' = b) as -> by congruence. destruct B as [B1 B2 B3 B4]; [apply D; now left|apply D; right; now left|].
    cbn [hd] in *. exists (css :: logs). split; [reflexivity|]. unfold all_statements in *. cbn [flat_map].
    assert (T : forall p, trace log_moves (lq_all css ++ flat_map lq_all logs) p =
                match trace log_moves (lq_all css) p with Some q => trace log_moves (flat_map lq_all logs) q | None => None end)
      by (intros; apply trace_app).
    split; [|constructor; cbn [hd]].
    + intros p Hp. rewrite T, B1; [|apply Hp; now left|apply Hp; right; now left]. apply St. intros ts Ht. apply Hp. now right.
    + intros p q Hp E. rewrite T in E. destruct (trace log_moves (lq_all css) p) as [p1|] eqn:E1; [|discriminate].
      pose proof (B4 _ _ Hp E1) as H1. specialize (G1 _ _ H1 E). destruct (has_dec (s_tables b) p) as [Hb|Hb].
      * rewrite (B1 p Hp Hb) in E1. injection E1 as <-. now apply way_stays.
      * eapply way_moves; eauto. apply B2; auto. intros ->. contradiction.
    + intros p p' q Hp Hp' E E'. rewrite T in E, E'. destruct (trace log_moves (lq_all css) p) as [p1|] eqn:E1; [|discriminate].
      destruct (trace log_moves (lq_all css) p') as [p2|] eqn:E2; [|discriminate].
      assert (p1 = p2) by (eapply G3; eauto). subst p2. eapply B3; eauto.
Qed.

(** the same values in one step *)
Lemma steps_direct : forall w fs comments f versions texts h v text, real_world w ->
  steps w fs comments f versions texts h -> (forall ts, In ts versions -> all_distinct ts) ->
  given v "from" = f -> given v "to" = h -> given v "groups" = "" -> (comments = true <-> switched_on v "comments") ->
  run w fs DiffLiquibase v = ([(given v "output", text)], Done) ->
  exists logs direct, texts = map (w_yaml w) logs /\ text = w_yaml w direct /\
    forall p, (forall ts, In ts versions -> has ts p) ->
      trace log_moves (all_statements logs) p = Some p /\ trace log_moves (lq_all direct) p = Some p.
Proof.
  intros w fs comments f versions texts h v text W H D Vf Vt Vg Vc R.
  destruct (steps_go _ _ _ _ _ _ _ W H D) as [logs [E [St _]]].
  destruct (steps_head _ _ _ _ _ _ _ H) as [a [vs [L Ev]]]. rewrite <- Vf in L.
  destruct (log_text w fs comments v text a W R L Vg Vc) as [z [css [Lz [Et B]]]]. rewrite Vt in Lz.
  assert (Z : In (s_tables z) versions).
  { clear - H Lz. induction H; [left; congruence|right; auto]. }
  exists logs, css. split; [exact E|]. split; [exact Et|]. intros p Hp. split; [now apply St|].
  destruct B as [B1 _ _ _]; [apply D; rewrite Ev; now left|now apply D|]. apply B1; [apply Hp; rewrite Ev; now left|now apply Hp].
Qed.
