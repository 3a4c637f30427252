(** Comparing with an empty schema *)
From Coq Require Import String Ascii List NArith ZArith Bool.
From Coq Require Import Sorting.Permutation.
From Verif.Model Require Import GoString Util Octopus Common DiffCore Diff DiffWriters Mysql Liquibase Cli.
From Verif.Spec Require Import Reading DiffSpec OptionsSpec NothingSpec.
From Verif.Proofs Require Import StringLemmas DiffCoreProofs ProtobufProofs.
Import ListNotations.
Local Open Scope string_scope.

Lemma scan_from_nothing : forall {CS} (dt : nat -> ident -> table -> table -> option (list CS * ident)) f ts id,
  scan_tables dt f [] ts id (ss_new []) = Some ([], id, ss_new [], filter (fun x => passes f (snd x)) ts).
Proof.
  intros CS dt f ts. induction ts as [|[i t] ts IH]; intros id; [ reflexivity | ]. cbn [scan_tables filter snd].
  destruct (passes f t); cbn [negb]; [ | apply IH ]. cbn [tables_by_name]. change (ss_remove (ss_new []) (t_name t)) with (ss_new []).
  rewrite IH. reflexivity.
Qed.
Lemma find_in_nothing : forall {A} (lk : string -> option A) same (added : list (nat * A)),
  find_renamed lk same added (ss_new []) = ([], ss_new []).
Proof. intros A lk same added. induction added as [|[i a] l IH]; [ reflexivity | ]. cbn [find_renamed]. exact IH. Qed.
Lemma filter_all : forall {A} (l : list A), filter (fun _ => true) l = l.
Proof. intros A l. induction l as [|a l IH]; cbn; [ reflexivity | now rewrite IH ]. Qed.
Lemma filter_second : forall (p : table -> bool) l, map snd (filter (fun x : nat * table => p (snd x)) l) = filter p (map snd l).
Proof. intros p l. induction l as [|[i t] l IH]; cbn; [ reflexivity | ]. destruct (p t); cbn; now rewrite IH. Qed.

Lemma diff_from_nothing : forall {CS} (dt : nat -> ident -> table -> table -> option (list CS * ident)) dr rn cr ord f from to,
  iteration_order ord -> s_tables from = [] ->
  diff_schemas dt dr rn cr ord f from to = option_map fst (create_tables cr (filter (passes f) (s_tables to)) new_id).
Proof.
  intros CS dt dr rn cr ord f from to O E. unfold diff_schemas. rewrite E. cbn [map]. cbv zeta.
  rewrite scan_from_nothing, find_in_nothing. cbn [ss_slice].
  assert (O' : ord [] = []) by (apply Permutation_nil, Permutation_sym, (O [])). rewrite O'.
  change (ss_slice (ss_new [])) with (@nil string). cbn [drop_tables rename_tables app].
  assert (N : not_renamed (filter (fun x => passes f (snd x)) (with_pos (s_tables to))) (@nil (nat * (table * table))) = filter (passes f) (s_tables to)).
  { unfold not_renamed. cbn [existsb negb]. rewrite filter_all, filter_second, with_pos_snd. reflexivity. }
  rewrite N. destruct (create_tables cr _ new_id) as [[css i]|]; reflexivity.
Qed.

Lemma create_generates : forall ok au x k f ts id,
  option_map fst (create_tables (fun id t => new_create_table_cs ok au x k id t) (filter (passes f) ts) id) = generate_tables ok au x k f ts id.
Proof.
  intros ok au x k f ts. induction ts as [|t ts IH]; intros id; [ reflexivity | ]. cbn [filter generate_tables].
  destruct (passes f t); cbn [negb]; [ | apply IH ]. cbn [create_tables].
  destruct (new_create_table_cs ok au x k (bump_major id) t) as [[css id1]|]; [ | reflexivity ].
  rewrite <- IH. destruct (create_tables _ _ id1) as [[css2 id2]|]; reflexivity.
Qed.

Lemma flag_out : forall c v n, left_out v n -> flag_string c v n = "".
Proof. intros c v n [H|H]; unfold flag_string; rewrite H; destruct (declared c n); reflexivity. Qed.
Lemma flag_same : forall c c' v v' n, same_value v v' n -> declared c n = true -> declared c' n = true -> flag_string c v n = flag_string c' v' n.
Proof. intros c c' v v' n H D D'. unfold flag_string. now rewrite D, D', H. Qed.

Lemma log_from_nothing : forall w fs v v' nf nt from, iteration_order (w_ord_tables w) ->
  v "from" = Some nf -> v "to" = Some nt -> v' "input" = Some nt -> v "output" <> None ->
  same_value v v' "output" -> same_value v v' "groups" -> same_value v v' "comments" ->
  left_out v "author" -> left_out v' "uniqueNameSuffix" ->
  load_file w fs nf = Loaded from -> s_tables from = [] ->
  run w fs DiffLiquibase v = run w fs GenerateLiquibase v'.
Proof.
  intros w fs v v' nf nt from O F T I OU SO SG SC A X L E. unfold run.
  assert (R : required_given DiffLiquibase v = true).
  { cbn. rewrite F, T. destruct (v "output") eqn:EO; [ reflexivity | congruence ]. }
  assert (R' : required_given GenerateLiquibase v' = true).
  { cbn. rewrite I. unfold same_value in SO. rewrite <- SO. destruct (v "output") eqn:EO; [ reflexivity | congruence ]. }
  rewrite R, R'. unfold action, diff_liquibase, generate_liquibase, with_schemas, with_schema.
  replace (flag_string DiffLiquibase v "from") with nf by (cbn; now rewrite F).
  replace (flag_string DiffLiquibase v "to") with nt by (cbn; now rewrite T).
  replace (flag_string GenerateLiquibase v' "input") with nt by (cbn; now rewrite I).
  rewrite L. destruct (load_file w fs nt) as [to| | | |]; try reflexivity.
  rewrite (flag_out DiffLiquibase v _ A), (flag_out GenerateLiquibase v' _ X), (flag_same DiffLiquibase GenerateLiquibase v v' _ SO eq_refl eq_refl),
    (flag_same DiffLiquibase GenerateLiquibase v v' _ SG eq_refl eq_refl).
  unfold flag_bool. rewrite (flag_same DiffLiquibase GenerateLiquibase v v' _ SC eq_refl eq_refl).
  unfold lq_diff, lq_generate. cbn [lo_filter lo_author lo_suffix lo_comments].
  rewrite (diff_from_nothing _ _ _ _ _ _ from to O E), create_generates. reflexivity.
Qed.

(** ** Scripts *)

Lemma lines_split : forall a b, lines (a ++ Mysql.newline ++ b) = (lines a ++ lines b)%list.
Proof.
  induction a as [|c a IH]; intros b; [ reflexivity | ]. cbn [append lines]. change (a ++ String "010" b) with (a ++ Mysql.newline ++ b). rewrite IH.
  destruct (Ascii.eqb c Reading.newline); [ reflexivity | ]. destruct (lines a) as [|l ls] eqn:E; [ | reflexivity ].
  exfalso. destruct a as [|d a]; cbn in E; [ discriminate E | ]. destruct (Ascii.eqb d Reading.newline); [ discriminate E | ].
  destruct (lines a); discriminate E.
Qed.
Lemma written_split : forall a b, written_lines (a ++ Mysql.newline ++ b) = (written_lines a ++ written_lines b)%list.
Proof. intros a b. unfold written_lines. now rewrite lines_split, filter_app. Qed.
Lemma flyway_created : forall au x ts id css i,
  create_tables (fun id t => Some ([mkCS (version id) au [CreateTable t]], id)) ts id = Some (css, i) ->
  flyway_write x css = String.concat "" (map (fun t => export_table x t ++ Mysql.newline ++ Mysql.newline) ts).
Proof.
  intros au x ts. induction ts as [|t ts IH]; intros id css i H; cbn [create_tables] in H; [ now injection H as <- <- | ].
  destruct (create_tables _ ts (bump_major id)) as [[css2 id2]|] eqn:E; [ | discriminate H ]. injection H as <- <-.
  unfold flyway_write in *. cbn [app map]. rewrite concat_cons_s. rewrite (IH _ _ _ E). cbn [map]. rewrite concat_cons_s.
  cbn [cs_changes flat_map to_sql app]. unfold write_lines. cbn [map String.concat]. now rewrite !app_assoc_s.
Qed.
Lemma same_lines : forall x ts, written_lines (String.concat "" (map (fun t => export_table x t ++ Mysql.newline ++ Mysql.newline) ts)) =
  written_lines (String.concat "" (map (export_table x) ts)).
Proof.
  intros x ts. induction ts as [|t ts IH]; [ reflexivity | ]. cbn [map]. rewrite !concat_cons_s.
  assert (T : exists b, export_table x t = b ++ Mysql.newline).
  { unfold export_table. eexists. rewrite <- !app_assoc_s. reflexivity. }
  destruct T as [b ->]. rewrite !app_assoc_s.
  change (Mysql.newline ++ Mysql.newline ++ String.concat "" (map (fun t0 => export_table x t0 ++ Mysql.newline ++ Mysql.newline) ts)) with
    ("" ++ Mysql.newline ++ "" ++ Mysql.newline ++ String.concat "" (map (fun t0 => export_table x t0 ++ Mysql.newline ++ Mysql.newline) ts)).
  rewrite !written_split, IH. reflexivity.
Qed.
Lemma creates_all : forall au ts id, exists css i,
  create_tables (fun id t => Some ([mkCS (version id) au [CreateTable t]], id)) ts id = Some (css, i).
Proof.
  intros au ts. induction ts as [|t ts IH]; intros id; [ now exists [], id | ]. cbn [create_tables].
  destruct (IH (bump_major id)) as (css & i & E). rewrite E. eauto.
Qed.

Lemma script_from_nothing : forall w fs v v' nf nt from to, iteration_order (w_ord_tables w) ->
  v "from" = Some nf -> v "to" = Some nt -> v' "input" = Some nt -> v "output" <> None ->
  same_value v v' "output" -> same_value v v' "groups" -> same_value v v' "uniqueNameSuffix" ->
  load_file w fs nf = Loaded from -> s_tables from = [] -> load_file w fs nt = Loaded to ->
  exists out text text', run w fs DiffFlyway v = ([(out, text)], Done) /\ run w fs ExportMysql v' = ([(out, text')], Done) /\
    written_lines text = written_lines text'.
Proof.
  intros w fs v v' nf nt from to O F T I OU SO SG SX L E L'. unfold run.
  assert (R : required_given DiffFlyway v = true).
  { cbn. rewrite F, T. destruct (v "output") eqn:EO; [ reflexivity | congruence ]. }
  assert (R' : required_given ExportMysql v' = true).
  { cbn. rewrite I. unfold same_value in SO. rewrite <- SO. destruct (v "output") eqn:EO; [ reflexivity | congruence ]. }
  rewrite R, R'. unfold action, diff_flyway, export_mysql_file, with_schemas, with_schema.
  replace (flag_string DiffFlyway v "from") with nf by (cbn; now rewrite F).
  replace (flag_string DiffFlyway v "to") with nt by (cbn; now rewrite T).
  replace (flag_string ExportMysql v' "input") with nt by (cbn; now rewrite I).
  rewrite L, L'.
  rewrite (flag_same DiffFlyway ExportMysql v v' _ SO eq_refl eq_refl), (flag_same DiffFlyway ExportMysql v v' _ SG eq_refl eq_refl),
    (flag_same DiffFlyway ExportMysql v v' _ SX eq_refl eq_refl).
  unfold get_diff. cbn [do_filter do_author do_suffix do_comments]. rewrite (diff_from_nothing _ _ _ _ _ _ from to O E).
  match goal with |- context [create_tables (fun id t => Some ([mkCS (version id) ?au [CreateTable t]], id)) ?ts new_id] =>
    destruct (creates_all au ts new_id) as (css & i & C) end.
  rewrite C. cbn [option_map fst]. unfold written. do 3 eexists. split; [ reflexivity | ]. split; [ reflexivity | ].
  rewrite (flyway_created _ _ _ _ _ _ C). apply same_lines.
Qed.
