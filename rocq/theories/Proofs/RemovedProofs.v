(** Comparisons with a schema without tables on one side (C132) *)
From Coq Require Import String Ascii List NArith ZArith Bool.
From Coq Require Import Sorting.Permutation Sorting.Sorted.
From Verif.Model Require Import GoString Util Octopus Common DiffCore Diff DiffWriters Mysql Liquibase Cli.
From Verif.Spec Require Import Order DiffSpec MarkdownSpec OptionsSpec LocalSpec RemovedSpec.
From Verif.Proofs Require Import StringLemmas UtilProofs DiffCoreProofs ProtobufProofs MarkdownProofs NothingProofs.
From Verif.Proofs Require OctopusProofs.
Import ListNotations.
Local Open Scope string_scope.

Lemma diff_to_nothing : forall {CS} (dt : nat -> ident -> table -> table -> option (list CS * ident)) dr rn cr ord f from to,
  iteration_order ord -> s_tables to = [] ->
  diff_schemas dt dr rn cr ord f from to = Some (fst (drop_tables dr (s_tables from) (ss_slice (ss_new (map t_name (s_tables from)))) new_id)).
Proof.
  intros CS dt dr rn cr ord f from to O E. unfold diff_schemas. rewrite E. cbn [with_pos length seq combine scan_tables find_renamed]. cbv zeta.
  unfold with_pos. cbn [length seq combine scan_tables find_renamed].
  destruct (drop_tables dr (s_tables from) (ss_slice (ss_new (map t_name (s_tables from)))) new_id) as [css id].
  assert (O' : ord [] = []) by (apply Permutation_nil, Permutation_sym, (O [])). rewrite O'.
  cbn [rename_tables not_renamed filter map create_tables app fst]. now rewrite app_nil_r.
Qed.

Lemma slice_names : forall ts, names_of ts (ss_slice (ss_new (map t_name ts))).
Proof.
  intros ts. destruct (ss_slice_ord_spec (fun l => l) (ss_new (map t_name ts)) (fun l => Permutation_refl l) (OctopusProofs.ss_new_nodup _)) as [A B].
  split; [exact A|]. intros n. unfold ss_slice. rewrite B, ss_contains_iff, OctopusProofs.ss_new_in, in_map_iff. split; intros [t [P Q]]; exists t; split; assumption.
Qed.
Lemma names_unique : forall ts a b, names_of ts a -> names_of ts b -> a = b.
Proof. intros ts a b [A B] [C D]. apply strictly_increasing_unique; auto. intros n. now rewrite B, D. Qed.

Lemma dropped_all : forall {CS X} (dr : ident -> string -> table -> CS) (g : CS -> X) (h : string -> X) from,
  (forall id n t, t_name t = n -> g (dr id n t) = h n) -> forall ns, (forall n, In n ns -> In n (map t_name from)) -> forall id,
  map g (fst (drop_tables dr from ns id)) = map h ns.
Proof.
  intros CS X dr g h from H ns. induction ns as [|n ns IH]; intros I id; [reflexivity|]. cbn [drop_tables].
  specialize (IH (fun m J => I m (or_intror J)) (bump_major id)).
  destruct (drop_tables dr from ns (bump_major id)) as [css id2]. cbn [fst] in IH.
  destruct (tables_by_name from n) as [t|] eqn:T.
  - cbn [fst map]. rewrite IH. f_equal. apply H. now apply OctopusProofs.tables_by_name_some in T.
  - apply OctopusProofs.tables_by_name_none in T. destruct (T (I n (or_introl eq_refl))).
Qed.
(** the tables that are dropped *)
Lemma dropped_tables : forall au from ns, (forall n, In n ns -> In n (map t_name from)) -> forall id,
  exists ts, map t_name ts = ns /\
  all_changes (fst (drop_tables (fun id _ old => mkCS (version id) au [DropTable old]) from ns id)) = map DropTable ts.
Proof.
  intros au from ns. induction ns as [|n ns IH]; intros I id; [now exists []|]. cbn [drop_tables].
  destruct (IH (fun m J => I m (or_intror J)) (bump_major id)) as [ts [N A]].
  destruct (drop_tables (fun id _ old => mkCS (version id) au [DropTable old]) from ns (bump_major id)) as [css id2]. cbn [fst] in A.
  destruct (tables_by_name from n) as [t|] eqn:T.
  - exists (t :: ts). apply OctopusProofs.tables_by_name_some in T as [_ T]. split; [cbn [map]; now rewrite N, T|].
    cbn [fst]. unfold all_changes in *. cbn [flat_map cs_changes app map]. now rewrite A.
  - apply OctopusProofs.tables_by_name_none in T. destruct (T (I n (or_introl eq_refl))).
Qed.

Lemma strict_nodup : forall l, strictly_increasing l -> NoDup l.
Proof.
  intros l S. induction S as [|x l S IH F]; constructor; [|exact IH]. intros I. rewrite Forall_forall in F.
  exact (bytes_lt_irrefl x (F x I)).
Qed.

(** a report about changes of one kind, one for each table *)
Lemma report_each : forall ord from to css (mk : table -> change) what ts, iteration_order ord ->
  (forall t, dep_table (mk t) = t) -> (forall t, md_line (mk t) = what) ->
  all_changes css = map mk ts -> NoDup (map t_name ts) -> forall ns, names_of ts ns ->
  md_write ord from to css = one_line_report (s_version from) (s_version to) what ns.
Proof.
  intros ord from to css mk what ts O D W A N ns NS.
  destruct (report ord from to css O) as [names [S [I [_ E]]]].
  assert (M : names_of ts names).
  { split; [exact S|]. intros n. rewrite I, A. split.
    - intros [ch [J K]]. apply in_map_iff in J as [t [<- J]]. exists t. rewrite D in K. auto.
    - intros [t [J K]]. exists (mk t). split; [now apply in_map|now rewrite D]. }
  rewrite (names_unique _ _ _ NS M). unfold md_write, one_line_report; cbv zeta; unfold as_text, write_lines. change eol with newline. rewrite E. f_equal. f_equal.
  unfold report_head. rewrite A. f_equal. rewrite !flat_map_concat_map. f_equal. apply map_ext_in. intros n J.
  unfold report_section. do 2 f_equal. apply M in J as [t [J K]]. subst n.
  assert (F : filter (under (t_name t)) (map mk ts) = [mk t]); [|rewrite F; cbn [map]; now rewrite W].
  clear -D N J. induction ts as [|u ts IH]; [destruct J|]. cbn [map] in N. apply NoDup_cons_iff in N as [P N]. cbn [map filter].
  unfold under at 1. rewrite D. destruct J as [<-|J].
  - rewrite String.eqb_refl. f_equal. clear -D P. induction ts as [|v ts IH]; [reflexivity|]. cbn [map filter]. unfold under at 1. rewrite D.
    destruct (String.eqb_spec (t_name v) (t_name u)) as [E|_]; [destruct P; cbn [map]; left; exact E|]. apply IH. intros I. apply P. now right.
  - destruct (String.eqb_spec (t_name u) (t_name t)) as [E|_]; [destruct P; rewrite E; now apply in_map|]. now apply IH.
Qed.

(** ** The commands *)

Lemma script_to_nothing : forall w fs v nf nt out from to, iteration_order (w_ord_tables w) ->
  v "from" = Some nf -> v "to" = Some nt -> v "output" = Some out ->
  load_file w fs nf = Loaded from -> load_file w fs nt = Loaded to -> s_tables to = [] ->
  exists ns, names_of (s_tables from) ns /\ run w fs DiffFlyway v = ([(out, drop_script ns)], Done).
Proof.
  intros w fs v nf nt out from to O F T OU L L' E. exists (ss_slice (ss_new (map t_name (s_tables from)))). split; [apply slice_names|].
  pose proof (slice_names (s_tables from)) as [_ IN]. unfold run.
  assert (R : required_given DiffFlyway v = true) by (cbn; now rewrite F, T, OU).
  rewrite R. unfold action, diff_flyway, with_schemas, with_schema.
  replace (flag_string DiffFlyway v "from") with nf by (cbn; now rewrite F).
  replace (flag_string DiffFlyway v "to") with nt by (cbn; now rewrite T).
  replace (flag_string DiffFlyway v "output") with out by (cbn; now rewrite OU).
  rewrite L, L'. unfold get_diff. rewrite (diff_to_nothing _ _ _ _ _ _ from to O E). unfold written. do 4 f_equal.
  unfold flyway_write.
  match goal with |- String.concat "" (map ?g (fst (drop_tables ?dr _ ?ns _))) = _ =>
    rewrite (dropped_all dr g (fun n => "DROP TABLE " ++ n ++ ";" ++ newline ++ newline)) end.
  - generalize (ss_slice (ss_new (map t_name (s_tables from)))). intros ns. unfold drop_script, as_text. change eol with newline.
    induction ns as [|n ns IH]; [reflexivity|]. cbn [map flat_map app]. rewrite !concat_cons_s, <- IH, !app_assoc_s. reflexivity.
  - intros id n t <-. cbn [cs_changes flat_map to_sql app]. unfold write_lines. cbn [map String.concat]. rewrite !app_assoc_s. reflexivity.
  - intros n I. apply IN in I as [t [I <-]]. now apply in_map.
Qed.

Lemma report_to_nothing : forall w fs v nf nt out from to, iteration_order (w_ord_tables w) -> iteration_order (w_ord_keys w) ->
  v "from" = Some nf -> v "to" = Some nt -> v "output" = Some out ->
  load_file w fs nf = Loaded from -> load_file w fs nt = Loaded to -> s_tables to = [] ->
  exists ns, names_of (s_tables from) ns /\
    run w fs DiffMd v = ([(out, one_line_report (s_version from) (s_version to) "drop table" ns)], Done).
Proof.
  intros w fs v nf nt out from to O OK F T OU L L' E. exists (ss_slice (ss_new (map t_name (s_tables from)))).
  pose proof (slice_names (s_tables from)) as NS. split; [exact NS|]. unfold run.
  assert (R : required_given DiffMd v = true) by (cbn; now rewrite F, T, OU).
  rewrite R. unfold action, diff_md, with_schemas, with_schema.
  replace (flag_string DiffMd v "from") with nf by (cbn; now rewrite F).
  replace (flag_string DiffMd v "to") with nt by (cbn; now rewrite T).
  replace (flag_string DiffMd v "output") with out by (cbn; now rewrite OU).
  rewrite L, L'. unfold get_diff. rewrite (diff_to_nothing _ _ _ _ _ _ from to O E). unfold written. do 4 f_equal.
  match goal with |- md_write _ _ _ (fst (drop_tables (fun id _ old => mkCS (version id) ?au [DropTable old]) ?l ?ns ?i)) = _ =>
    assert (D : exists ts, map t_name ts = ns /\
      all_changes (fst (drop_tables (fun id _ old => mkCS (version id) au [DropTable old]) l ns i)) = map DropTable ts);
    [apply dropped_tables|destruct D as [ts [N A]]] end.
  { intros n I. apply NS in I as [t [I <-]]. now apply in_map. }
  apply (report_each _ _ _ _ DropTable "drop table" ts); [exact OK|reflexivity|reflexivity|exact A| |].
  - rewrite N. apply strict_nodup, NS.
  - split; [apply NS|]. intros n. rewrite <- N, in_map_iff. split; intros [t [P Q]]; exists t; split; assumption.
Qed.

Lemma log_to_nothing : forall w fs v nf nt out from to, iteration_order (w_ord_tables w) ->
  v "from" = Some nf -> v "to" = Some nt -> v "output" = Some out ->
  load_file w fs nf = Loaded from -> load_file w fs nt = Loaded to -> s_tables to = [] ->
  exists ns css, names_of (s_tables from) ns /\ run w fs DiffLiquibase v = ([(out, w_yaml w css)], Done) /\
    map lq_changes css = map (fun n => [LqDropTable n]) ns.
Proof.
  intros w fs v nf nt out from to O F T OU L L' E.
  pose proof (slice_names (s_tables from)) as NS. unfold run.
  assert (R : required_given DiffLiquibase v = true) by (cbn; now rewrite F, T, OU).
  rewrite R. unfold action, diff_liquibase, with_schemas, with_schema.
  replace (flag_string DiffLiquibase v "from") with nf by (cbn; now rewrite F).
  replace (flag_string DiffLiquibase v "to") with nt by (cbn; now rewrite T).
  replace (flag_string DiffLiquibase v "output") with out by (cbn; now rewrite OU).
  rewrite L, L'. unfold lq_diff. rewrite (diff_to_nothing _ _ _ _ _ _ from to O E). unfold written.
  do 2 eexists. split; [exact NS|]. split; [reflexivity|]. apply dropped_all.
  - reflexivity.
  - intros n I. apply NS in I as [t [I <-]]. now apply in_map.
Qed.

Lemma created_changes : forall au ts id css i,
  create_tables (fun id t => Some ([mkCS (version id) au [CreateTable t]], id)) ts id = Some (css, i) ->
  all_changes css = map CreateTable ts.
Proof.
  intros au ts. induction ts as [|t ts IH]; intros id css i H; cbn [create_tables] in H; [now injection H as <- <-|].
  destruct (create_tables _ ts (bump_major id)) as [[css2 id2]|] eqn:E; [|discriminate H]. injection H as <- <-.
  unfold all_changes in *. cbn [app flat_map cs_changes map]. now rewrite (IH _ _ _ E).
Qed.
Lemma report_from_nothing : forall w fs v nf nt out g from to, iteration_order (w_ord_tables w) -> iteration_order (w_ord_keys w) ->
  v "from" = Some nf -> v "to" = Some nt -> v "output" = Some out -> flag_string DiffMd v "groups" = g ->
  load_file w fs nf = Loaded from -> s_tables from = [] -> load_file w fs nt = Loaded to -> NoDup (map t_name (s_tables to)) ->
  exists ns, names_of (filter (passes (get_table_filter g)) (s_tables to)) ns /\
    run w fs DiffMd v = ([(out, one_line_report (s_version from) (s_version to) "create table" ns)], Done).
Proof.
  intros w fs v nf nt out g from to O OK F T OU G L E L' N. set (ts := filter (passes (get_table_filter g)) (s_tables to)).
  exists (ss_slice (ss_new (map t_name ts))). pose proof (slice_names ts) as NS. split; [exact NS|]. unfold run.
  assert (R : required_given DiffMd v = true) by (cbn; now rewrite F, T, OU).
  rewrite R. unfold action, diff_md, with_schemas, with_schema.
  replace (flag_string DiffMd v "from") with nf by (cbn; now rewrite F).
  replace (flag_string DiffMd v "to") with nt by (cbn; now rewrite T).
  replace (flag_string DiffMd v "output") with out by (cbn; now rewrite OU).
  rewrite L, L', G. unfold get_diff. cbn [do_filter do_author do_suffix do_comments]. rewrite (diff_from_nothing _ _ _ _ _ _ from to O E).
  match goal with |- context [create_tables (fun id t => Some ([mkCS (version id) ?au [CreateTable t]], id)) ?ts new_id] =>
    destruct (creates_all au ts new_id) as (css & i & C) end.
  rewrite C. cbn [option_map fst]. unfold written. do 4 f_equal.
  apply (report_each _ _ _ _ CreateTable "create table" ts); [exact OK|reflexivity|reflexivity| | |exact NS].
  - exact (created_changes _ _ _ _ _ C).
  - unfold ts. clear -N. induction (s_tables to) as [|t l IH]; [constructor|]. cbn [map] in N. apply NoDup_cons_iff in N as [P N]. cbn [filter].
    destruct (passes _ t); [|now apply IH]. cbn [map]. constructor; [|now apply IH]. intros I. apply P.
    apply in_map_iff in I as [u [<- I]]. apply in_map. now apply filter_In in I.
Qed.
