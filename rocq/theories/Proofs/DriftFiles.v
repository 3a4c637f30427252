(** The diff commands on files that agree, and on files that went through MySQL DDL or a workbook *)
From Coq Require Import String Ascii List NArith Bool Sorting.Permutation Sorted.
From Verif.Model Require Import GoString Util Octopus Common DiffCore Diff DiffWriters Liquibase Mysql Xlsx Cli.
From Verif.Spec Require Import Text OctopusSpec DiffSpec LiquibaseSpec CliSpec OptionsSpec StabilitySpec GroupSpec MysqlGrammar MysqlSpec EndSpec DriftSpec.
From Verif.Spec Require Import JsonSpec.
From Verif.Spec Require XlsxSpec.
From Verif.Proofs Require Import ListLemmas StringLemmas OctopusProofs StabilityProofs EndToEnd EndCases Drift.
Import ListNotations.
Local Open Scope string_scope.

Lemma md_silent : forall ord a b, iteration_order ord -> md_write ord a b [] = "# DB Schema changes

* from: `" ++ s_version a ++ "`
* to: `" ++ s_version b ++ "`
".
Proof.
  intros ord a b H. unfold md_write, md_lines. cbn [changes_by_table fold_left].
  assert (K : mm_keys ord (@nil (string * list change)) = []).
  { unfold mm_keys. cbn [map]. apply Permutation_nil. symmetry. apply H. }
  rewrite K. cbn [sort_strings flat_map]. unfold write_lines. cbn [map String.concat].
  unfold Mysql.newline. rewrite !app_assoc_s. reflexivity.
Qed.

Lemma agreeing_files : forall w fs v a b, real_world w -> v "from" <> None -> v "to" <> None -> v "output" <> None ->
  load_file w fs (given v "from") = Loaded a -> load_file w fs (given v "to") = Loaded b -> distinct_names a -> distinct_names b ->
  given v "groups" = "" -> agree (flag_bool DiffFlyway v "comments") None a b -> says_nothing w fs v a b.
Proof.
  intros w fs v a b (_ & _ & OT & OC & OK & _) F T O LF LT Da Db G Ag. unfold says_nothing.
  assert (FI : forall c, get_table_filter (flag_string c v "groups") = None).
  { intros c. unfold flag_string. destruct (declared c "groups"); [|reflexivity].
    change (get_table_filter (given v "groups") = None). now rewrite G. }
  unfold run. rewrite !diff_required by (cbn; auto). unfold action, diff_flyway, diff_liquibase, diff_md, with_schemas, with_schema.
  change (flag_string DiffFlyway v "from") with (given v "from"). change (flag_string DiffFlyway v "to") with (given v "to").
  change (flag_string DiffLiquibase v "from") with (given v "from"). change (flag_string DiffLiquibase v "to") with (given v "to").
  change (flag_string DiffMd v "from") with (given v "from"). change (flag_string DiffMd v "to") with (given v "to").
  rewrite LF, LT.
  rewrite !(agree_report _ _ (mkDiffOption _ _ _ _) a b OT OC Da Db) by (cbn [do_filter do_comments]; rewrite FI; exact Ag).
  rewrite (agree_log _ _ _ _ a b OT OC Da Db) by (cbn [lo_filter lo_comments]; rewrite FI; exact Ag).
  rewrite (md_silent _ a b OK). repeat split.
Qed.

(** ** Tables that differ only in what is not compared *)
Definition alike_table (comments : bool) (a b : table) : Prop :=
  t_name b = t_name a /\ (comments = true -> t_desc b = t_desc a) /\ Forall2 (same_column comments) (t_cols a) (t_cols b).
Lemma same_column_sym : forall comments a b, same_column comments a b -> same_column comments b a.
Proof. unfold same_column, as_before. intros comments a b [(A & B & C & D & E & F & G & H & I) J]. repeat split; symmetry; auto. Qed.
Lemma alike_sym : forall comments a b, alike_table comments a b -> alike_table comments b a.
Proof.
  intros comments a b (N & D & F). split; [now symmetry|]. split; [intros X; symmetry; auto|].
  clear N D. induction F; constructor; auto using same_column_sym.
Qed.
Lemma alike_agrees : forall comments a b, alike_table comments a b -> table_agrees (same_column comments) (fun _ => False) comments a b.
Proof.
  intros comments a b (_ & D & F). split; [assumption|]. split.
  - intros o I. destruct (Forall2_in_l _ _ _ _ F I) as (c & Ic & Q). eauto.
  - intros c I. left. destruct (Forall2_in_r _ _ _ _ F I) as (o & Io & Q). eauto.
Qed.
Lemma alike_agree : forall comments ts s s', Permutation (s_tables s') ts -> Forall2 (alike_table comments) (s_tables s) ts ->
  agree comments None s s' /\ agree comments None s' s.
Proof.
  intros comments ts s s' P F. split; (split; [|]).
  - intros old Io. destruct (Forall2_in_l _ _ _ _ F Io) as (t & It & Q). exists t.
    split; [exact (Permutation_in _ (Permutation_sym P) It)|]. split; [exact I|apply Q].
  - intros t It _. destruct (Forall2_in_r _ _ _ _ F (Permutation_in _ P It)) as (old & Io & Q). exists old.
    split; [assumption|]. split; [symmetry; apply Q|now apply alike_agrees].
  - intros old Io. destruct (Forall2_in_r _ _ _ _ F (Permutation_in _ P Io)) as (t & It & Q). exists t.
    split; [assumption|]. split; [exact I|symmetry; apply Q].
  - intros t It _. destruct (Forall2_in_l _ _ _ _ F It) as (old & Io & Q). exists old.
    split; [exact (Permutation_in _ (Permutation_sym P) Io)|]. split; [apply Q|]. now apply alike_agrees, alike_sym.
Qed.
Lemma alike_distinct : forall comments ts s s', Permutation (s_tables s') ts -> Forall2 (alike_table comments) (s_tables s) ts ->
  distinct_names s -> distinct_names s'.
Proof.
  intros comments ts s s' P F [D1 D2].
  assert (N : map t_name ts = map t_name (s_tables s)).
  { clear - F. induction F as [|a b x y (N & _) F IH]; [reflexivity|]. cbn. now rewrite N, IH. }
  split.
  - apply (Permutation_NoDup (l := map t_name (s_tables s))); [|assumption]. rewrite <- N. apply Permutation_map, Permutation_sym, P.
  - intros t It. destruct (Forall2_in_r _ _ _ _ F (Permutation_in _ P It)) as (old & Io & _ & _ & Q). specialize (D2 old Io).
    assert (E : map c_name (t_cols t) = map c_name (t_cols old)).
    { clear - Q. induction Q as [|a b x y (N & _) F IH]; [reflexivity|]. cbn. destruct N as (-> & _). now rewrite IH. }
    now rewrite E.
Qed.
Lemma same_column_refl : forall comments c, same_column comments c c.
Proof. intros. repeat split. Qed.
Lemma same_columns_refl : forall comments l, Forall2 (same_column comments) l l.
Proof. intros comments l. induction l; constructor; auto using same_column_refl. Qed.

(** the two files in either order *)
Lemma alike_files : forall w fs v x y comments a b ts, real_world w ->
  load_file w fs x = Loaded a -> load_file w fs y = Loaded b -> distinct_names a ->
  Permutation (s_tables b) ts -> Forall2 (alike_table comments) (s_tables a) ts -> flag_bool DiffFlyway v "comments" = comments ->
  (compares v x y -> says_nothing w fs v a b) /\ (compares v y x -> says_nothing w fs v b a).
Proof.
  intros w fs v x y comments a b ts R La Lb Da P F C. destruct (alike_agree _ _ _ _ P F) as [A B].
  pose proof (alike_distinct _ _ _ _ P F Da) as Db.
  split; intros (O & G & Vf & Vt); apply agreeing_files; auto; unfold given; rewrite ?Vf, ?Vt, ?C; auto; discriminate.
Qed.

(** ** After a trip through MySQL DDL *)
Lemma picked_whole : forall (P : table -> Prop) ts, Forall P ts -> picked P ts ts.
Proof. intros P ts F. induction F; constructor; assumption. Qed.
Lemma core_alike : forall comments t, (comments = true -> t_desc t = "") -> alike_table comments t (table_core t).
Proof.
  intros comments t D. split; [reflexivity|]. split; [intros C; symmetry; exact (D C)|].
  cbn [table_core t_cols]. clear D. induction (t_cols t); constructor; auto. repeat split.
Qed.
Lemma mysql_drift : forall w reserved fs v s, real_world w -> reads_sql w reserved ->
  load_file w fs (given v "input") = Loaded s -> valid_schema s -> distinct_names s ->
  v "input" <> None -> v "output" <> None -> given v "groups" = "" ->
  Forall (plain_table reserved (given v "uniqueNameSuffix")) (s_tables s) ->
  Forall (fun t => Forall survives (t_cols t)) (s_tables s) ->
  exists text, run w fs ExportMysql v = ([(given v "output", text)], Done) /\
  forall fs' v', fs' (given v' "input") = Some text -> v' "input" <> None -> v' "output" <> None ->
  octopus_name (given v' "output") -> utf8 (given v' "author") -> utf8 (given v' "version") -> given v' "excludes" = "" ->
  exists text', run w fs' ImportMysql v' = ([(given v' "output", text')], Done) /\
  forall fs'' x d, fs'' (given v' "output") = Some text' -> load_file w fs'' x = Loaded s ->
  (flag_bool DiffFlyway d "comments" = true -> Forall (fun t => t_desc t = "") (s_tables s)) ->
  exists s', load_file w fs'' (given v' "output") = Loaded s' /\
    (compares d x (given v' "output") -> says_nothing w fs'' d s s') /\ (compares d (given v' "output") x -> says_nothing w fs'' d s' s).
Proof.
  intros w reserved fs v s R Sq L V D I O G Pl Sv. assert (Hs : sorts_tables (w_sort w)) by apply R.
  destruct (mysql_files w reserved fs v s (s_tables s) Hs Sq L V I O) as (text & E & K); auto.
  { rewrite G. apply picked_all. }
  { rewrite Forall_forall in *. intros t T. split; [apply D, T|apply Sv, T]. }
  exists text. split; [assumption|]. intros fs' v' F I' O' On Ua Uv Ex.
  destruct (K fs' v' (s_tables s) F I' O' On Ua Uv) as (text' & E' & K').
  { rewrite Ex. apply picked_whole. rewrite Forall_forall in *. intros t T.
    pose proof (proj2 (pt_name _ _ _ (Pl t T))) as N. rewrite <- listed_iff. cbn.
    destruct (t_name t); [discriminate N|]. discriminate. }
  exists text'. split; [assumption|]. intros fs'' x d F'' Lx Nd. destruct (K' fs'' F'') as (s' & L' & _ & Q).
  exists s'. split; [assumption|]. destruct Q as (P & _).
  apply (alike_files w fs'' d x (given v' "output") (flag_bool DiffFlyway d "comments") s s' (map table_core (s_tables s))); auto.
  clear - Nd. induction (s_tables s) as [|t l IH]; constructor.
  - apply core_alike. intros C. specialize (Nd C). inversion Nd; assumption.
  - apply IH. intros C. specialize (Nd C). inversion Nd; assumption.
Qed.

(** ** After a trip through a workbook *)
Lemma sheet_alike : forall comments g t, alike_table comments t (XlsxSpec.in_group g t).
Proof. intros comments g t. repeat split. apply same_columns_refl. Qed.
Lemma xlsx_drift : forall w fs v s, real_world w -> keeps_workbooks w ->
  load_file w fs (given v "input") = Loaded s -> valid_schema s -> distinct_names s ->
  v "input" <> None -> v "output" <> None ->
  XlsxSpec.sheets_possible (w_sheet_ok w) s -> Forall XlsxSpec.plain_table (s_tables s) ->
  exists text, run w fs ExportXlsx v = ([(given v "output", text)], Done) /\
  forall fs' v', fs' (given v' "input") = Some text -> v' "input" <> None -> v' "output" <> None ->
  octopus_name (given v' "output") ->
  exists text', run w fs' ImportXlsx v' = ([(given v' "output", text')], Done) /\
  forall fs'' x d, fs'' (given v' "output") = Some text' -> load_file w fs'' x = Loaded s ->
  exists s', load_file w fs'' (given v' "output") = Loaded s' /\
    (compares d x (given v' "output") -> says_nothing w fs'' d s s') /\ (compares d (given v' "output") x -> says_nothing w fs'' d s' s).
Proof.
  intros w fs v s R Kw L V D I O Sp Pl.
  destruct (xlsx_files w fs v s R Kw L V I O Sp Pl) as (text & E & K).
  exists text. split; [assumption|]. intros fs' v' F I' O' On.
  destruct (K fs' v' F I' O' On) as (text' & E' & K').
  exists text'. split; [assumption|]. intros fs'' x d F'' Lx. destruct (K' fs'' F'') as (s' & L' & _ & Q).
  exists s'. split; [assumption|]. destruct Q as (P & _).
  apply (alike_files w fs'' d x (given v' "output") (flag_bool DiffFlyway d "comments") s s' _ R Lx L' D P); auto.
  cbn [s_tables]. clear. induction (s_tables s) as [|t l IH]; constructor; auto using sheet_alike.
Qed.
