(** When commands crash (C113) *)
From Coq Require Import String Ascii List NArith ZArith Bool.
From Verif.Model Require Import GoString Util Octopus Common Json JsonText Ojson OjsonText Staruml StarumlText Mysql Protobuf Jpa Xlsx Cli.
From Verif.Spec Require Import Text OctopusSpec CommonSpec OjsonSpec StarumlSpec ProtobufSpec KotlinSpec FormatSpec MysqlGrammar
  CliSpec OptionsSpec GroupSpec EndSpec CrashSpec.
From Verif.Proofs Require Import StringLemmas ListLemmas UtilProofs OjsonProofs CommonProofs StarumlProofs ProtobufProofs JpaMain CliCases CliFormat
  CliGroups MysqlWitnesses EndToEnd EndCases.
From Verif.Proofs Require MysqlTables.
Import ListNotations.
Local Open Scope string_scope.

(** ** Single causes *)

Lemma mixed_iff : forall opt,
  char_in ":" opt /\ (exists t, In t (split_char "," opt) /\ ~ char_in ":" t) <-> mixed_pairs opt.
Proof.
  intros opt. unfold mixed_pairs.
  split; intros [C (t & T & N)]; (split; [exact C|]); exists t; (split; [|exact N]).
  - apply listed_iff. now apply str_in_iff.
  - apply listed_iff in T. now apply str_in_iff.
Qed.

Lemma panics_iff : forall ex stmts, existsb (stmt_panics (ss_new (split_char "," ex))) stmts = true <->
  exists s name, In s stmts /\ on_expression s name /\ ~ listed ex name.
Proof.
  intros ex stmts. rewrite existsb_exists. split.
  - intros (s & I & P). destruct s as [name cds ks|]; [|discriminate]. cbn [stmt_panics] in P. apply andb_true_iff in P as [X P].
    exists (SCreateTable name cds ks), name. split; [exact I|]. split.
    + exists cds, ks. split; [reflexivity|]. apply existsb_exists in P as (k & K & P). destruct k; try discriminate. exact K.
    + rewrite MysqlTables.ss_new_in in X. intros L. apply listed_iff in L. rewrite L in X. discriminate.
  - intros (s & name & I & (cds & ks & -> & K) & N). exists (SCreateTable name cds ks). split; [exact I|].
    cbn [stmt_panics]. rewrite MysqlTables.ss_new_in. apply andb_true_iff. split.
    + apply negb_true_iff. destruct (str_in name (split_char "," ex)) eqn:E; [|reflexivity]. now apply listed_iff in E.
    + apply existsb_exists. exists KExpr. auto.
Qed.

(** the tables that are chosen refer to tables that are there, or one does not *)
Lemma refs_or_not : forall f s,
  (forall t, In t (filter (passes f) (s_tables s)) -> refs_resolve (s_tables s) t) \/
  exists t k r, In t (filter (passes f) (s_tables s)) /\ In k (t_cols t) /\ c_ref k = Some r /\
    forall u, In u (s_tables s) -> t_name u <> ref_table r.
Proof.
  intros f s. set (found := fun r => existsb (fun u => String.eqb (t_name u) (ref_table r)) (s_tables s)).
  induction (filter (passes f) (s_tables s)) as [|t l [IH|IH]]; [left; intros t []| |right].
  - assert (D : refs_resolve (s_tables s) t \/ exists k r, In k (t_cols t) /\ c_ref k = Some r /\ forall u, In u (s_tables s) -> t_name u <> ref_table r).
    { unfold refs_resolve, table_refs. clear IH l. induction (t_cols t) as [|k ks [IH|IH]].
      - left. intros r [].
      - destruct (c_ref k) as [r|] eqn:R.
        + destruct (found r) eqn:F.
          * left. intros r' I. cbn [flat_map] in I. rewrite R in I. destruct I as [<-|I]; [|auto].
            apply existsb_exists in F as (u & U & E). apply String.eqb_eq in E. eauto.
          * right. exists k, r. split; [now left|]. split; [exact R|]. intros u U E.
            assert (found r = true) by (apply existsb_exists; exists u; split; [exact U|now apply String.eqb_eq]). congruence.
        + left. intros r I. cbn [flat_map] in I. rewrite R in I. auto.
      - right. destruct IH as (k' & r & I & H). exists k', r. split; [now right|exact H]. }
    destruct D as [D|(k & r & D)].
    + left. intros t' [<-|I]; auto.
    + right. exists t, k, r. split; [now left|exact D].
  - destruct IH as (t' & k & r & I & H). exists t', k, r. split; [now right|exact H].
Qed.

(** ** All commands *)

Section Command.
Variables (w : world) (fs : files) (v : values).
Hypothesis Hv : sorts_v1 (w_sort_v1 w).

Lemma load_cause : forall c opt k ws, names_schema c opt -> with_schema w fs (given v opt) k = (ws, Crashed) ->
  crash_cause w fs v c \/ exists s, load_file w fs (given v opt) = Loaded s /\ k s = (ws, Crashed).
Proof.
  intros c opt k ws N H. unfold with_schema in H. destruct (load_file w fs (given v opt)) as [s| | | |] eqn:L.
  - right. exists s. auto.
  - discriminate.
  - left. destruct (proj1 (crash_null w fs (given v opt)) L) as (text & j & F & R & X). exact (cause_null w fs v c opt text j N F R X).
  - discriminate.
  - discriminate.
Qed.

Lemma prefix_cause : forall c, In c [GenerateGorm; GenerateKt; GeneratePb; GenerateSqlalchemy] ->
  new_prefix_mapper (given v "prefix") = Panic -> crash_cause w fs v c.
Proof. intros c I H. apply cause_prefix; [exact I|]. apply mixed_iff. now apply prefix_panic. Qed.

Lemma saved_not_crashed : forall name s ws, save_schema w name s <> (ws, Crashed).
Proof. intros name s ws. unfold save_schema. destruct (to_text _ _); discriminate. Qed.

Lemma crash_has_cause : forall c ws, run w fs c v = (ws, Crashed) -> crash_cause w fs v c.
Proof.
  intros c ws R. unfold run in R. destruct (required_given c v); [|discriminate].
  destruct c; cbn [action] in R.
  - now apply saved_not_crashed in R.
  - unfold import_mysql in R. change (flag_string ImportMysql v "input") with (given v "input") in R.
    change (flag_string ImportMysql v "excludes") with (given v "excludes") in R.
    destruct (fs (given v "input")) as [text|] eqn:F; [|discriminate]. destruct (w_sql w text) as [stmts|] eqn:S; [|discriminate].
    unfold with_res, import_sql in R.
    destruct (existsb (stmt_panics (ss_new (split_char "," (given v "excludes")))) stmts) eqn:P; [|now apply saved_not_crashed in R].
    apply panics_iff in P as (s & name & I & E & N). eapply cause_expression; eassumption.
  - unfold import_ojson in R. change (flag_string ImportOjson v "input") with (given v "input") in R.
    destruct (fs (given v "input")) as [text|] eqn:F; [|discriminate]. destruct (read_text text) as [j|] eqn:J; [|discriminate].
    destruct (v1_from_json (without_nulls j)) as [s|] eqn:S; [|discriminate].
    destruct (has_null_table j || has_null_column j) eqn:N.
    + apply (cause_null w fs v ImportOjson "input" text j); auto.
      * right. split; [now left|reflexivity].
      * apply orb_true_iff in N as [N|N]; [left; now apply null_table_true|right; exact (null_part_true "columns" _ N)].
    + unfold with_res in R. destruct (import_v1 (w_sort_v1 w) s) as [s'|] eqn:I; [now apply saved_not_crashed in R|].
      apply (import_v1_panics _ _ Hv) in I as (k & K & T & E). eapply cause_unnamed; eassumption.
  - unfold import_staruml_file in R. change (flag_string ImportStaruml v "input") with (given v "input") in R.
    destruct (fs (given v "input")) as [text|] eqn:F; [|discriminate].
    destruct (st_from_text (w_float_ok w) text) as [root|] eqn:S; [|discriminate]. unfold with_res in R.
    destruct (import_staruml root) as [[s|]|] eqn:I; [now apply saved_not_crashed in R|discriminate|].
    apply (cause_project w fs v text root F S). intros [A B]. destruct (import_ok root A B) as [X Y].
    destruct (of_type "ERDDataModel" (e_owned root)) as [|m ms] eqn:M; [rewrite (X eq_refl) in I; discriminate|].
    destruct Y as [s Y]; [discriminate|congruence].
  - unfold import_xlsx_file in R. destruct (fs _); [|discriminate]. destruct (w_open_xlsx w _); [|discriminate].
    destruct (import_xlsx _ _); [now apply saved_not_crashed in R|discriminate].
  - apply (load_cause ExportDbml "input") in R as [R|(s & L & R)]; [exact R|discriminate|right; split; [cbn [In]; tauto|reflexivity]].
  - apply (load_cause ExportQuickdbd "input") in R as [R|(s & L & R)]; [exact R|discriminate|right; split; [cbn [In]; tauto|reflexivity]].
  - apply (load_cause ExportMysql "input") in R as [R|(s & L & R)]; [exact R|discriminate|right; split; [cbn [In]; tauto|reflexivity]].
  - apply (load_cause ExportXlsx "input") in R as [R|(s & L & R)]; [exact R| |right; split; [cbn [In]; tauto|reflexivity]].
    destruct (export_xlsx _ _ s); discriminate.
  - apply (load_cause GenerateGorm "input") in R as [R|(s & L & R)]; [exact R| |right; split; [cbn [In]; tauto|reflexivity]].
    change (flag_string GenerateGorm v "prefix") with (given v "prefix") in R.
    destruct (new_prefix_mapper (given v "prefix")) as [pm|] eqn:P; [discriminate|]. apply prefix_cause; [cbn [In]; tauto|exact P].
  - apply (load_cause GenerateGraphql "input") in R as [R|(s & L & R)]; [exact R|discriminate|right; split; [cbn [In]; tauto|reflexivity]].
  - apply (load_cause GenerateKt "input") in R as [R|(s & L & R)]; [exact R| |right; split; [cbn [In]; tauto|reflexivity]].
    change (flag_string GenerateKt v "prefix") with (given v "prefix") in R.
    change (flag_string GenerateKt v "annotation") with (given v "annotation") in R.
    destruct (new_anno_mapper (given v "annotation")) as [am|] eqn:A.
    2:{ apply cause_annotation. apply mixed_iff. now apply anno_panic. }
    destruct (new_prefix_mapper (given v "prefix")) as [pm|] eqn:P; [|apply prefix_cause; [cbn [In]; tauto|exact P]].
    cbn [with_res] in R. match type of R with context [kt_generate _ _ _ _ ?opt _ _] => set (o := opt) in * end.
    destruct (kt_generate (w_camel w) (w_lower_camel w) (w_snake w) (w_join w) o s (flag_string GenerateKt v "output")) as [ws' e] eqn:G.
    assert (K : e = KtPanic) by (destruct e; congruence).
    destruct (proj1 (panic_iff (w_camel w) (w_lower_camel w) (w_snake w) (w_join w) o s (flag_string GenerateKt v "output"))) as (_ & Rp & t & T & Z).
    { rewrite G. exact K. }
    apply filter_In in T as [T Ps]. apply (cause_keyless w fs v s t L T); auto. now apply chosen_iff.
  - apply (load_cause GenerateLiquibase "input") in R as [R|(s & L & R)]; [exact R| |right; split; [cbn [In]; tauto|reflexivity]].
    destruct (Liquibase.lq_generate _ _ s); discriminate.
  - apply (load_cause GeneratePlantuml "input") in R as [R|(s & L & R)]; [exact R|discriminate|right; split; [cbn [In]; tauto|reflexivity]].
  - apply (load_cause GeneratePb "input") in R as [R|(s & L & R)]; [exact R| |right; split; [cbn [In]; tauto|reflexivity]].
    unfold pb_cli_option in R. change (flag_string GeneratePb v "prefix") with (given v "prefix") in R.
    destruct (new_prefix_mapper (given v "prefix")) as [pm|] eqn:P; [|apply prefix_cause; [cbn [In]; tauto|exact P]].
    cbn [with_res] in R. match type of R with context [pb_generate _ _ ?opt _] => set (o := opt) in * end.
    destruct (pb_generate (w_camel w) (w_lower_camel w) o s) as [text|] eqn:G; [discriminate|].
    destruct (refs_or_not (po_filter o) s) as [H|(t & k & r & T & K & C & N)].
    + apply (proj1 (generate_ok (w_camel w) (w_lower_camel w) o s)) in H as [text H]. congruence.
    + apply filter_In in T as [T Ps]. apply (cause_dangling w fs v s t k r L T); auto. now apply chosen_iff.
  - apply (load_cause GenerateSqlalchemy "input") in R as [R|(s & L & R)]; [exact R| |right; split; [cbn [In]; tauto|reflexivity]].
    change (flag_string GenerateSqlalchemy v "prefix") with (given v "prefix") in R.
    destruct (new_prefix_mapper (given v "prefix")) as [pm|] eqn:P; [discriminate|]. apply prefix_cause; [cbn [In]; tauto|exact P].
  - apply (load_cause DiffFlyway "from") in R as [R|(s & L & R)]; [exact R| |left; cbn [In]; tauto].
    apply (load_cause DiffFlyway "to") in R as [R|(s' & L' & R)]; [exact R| |left; cbn [In]; tauto].
    destruct (Diff.get_diff _ _ _ s s'); discriminate.
  - apply (load_cause DiffLiquibase "from") in R as [R|(s & L & R)]; [exact R| |left; cbn [In]; tauto].
    apply (load_cause DiffLiquibase "to") in R as [R|(s' & L' & R)]; [exact R| |left; cbn [In]; tauto].
    destruct (Liquibase.lq_diff _ _ _ _ s s'); discriminate.
  - apply (load_cause DiffMd "from") in R as [R|(s & L & R)]; [exact R| |left; cbn [In]; tauto].
    apply (load_cause DiffMd "to") in R as [R|(s' & L' & R)]; [exact R| |left; cbn [In]; tauto].
    destruct (Diff.get_diff _ _ _ s s'); discriminate.
Qed.
End Command.

(** ** Import of MySQL DDL, exactly *)

Lemma mysql_crash : forall w fs v text stmts, v "input" <> None -> v "output" <> None ->
  fs (given v "input") = Some text -> w_sql w text = Some stmts ->
  (run w fs ImportMysql v = ([], Crashed) <->
   exists s name, In s stmts /\ on_expression s name /\ ~ listed (given v "excludes") name).
Proof.
  intros w fs v text stmts I O F S. unfold run. rewrite needed_enough by (intros n [<-|[<-|[]]]; assumption).
  unfold action, import_mysql. change (flag_string ImportMysql v "input") with (given v "input").
  change (flag_string ImportMysql v "excludes") with (given v "excludes"). rewrite F, S. unfold import_sql. rewrite <- panics_iff.
  destruct (existsb (stmt_panics (ss_new (split_char "," (given v "excludes")))) stmts); cbn [with_res]; [split; reflexivity|].
  split; [|discriminate]. intros H. now apply saved_not_crashed in H.
Qed.

(** ** The statement that any valid DDL is taken in does not hold *)
Definition kx_ddl : string := "CREATE TABLE `user` (`name` varchar(40), INDEX `by_name` ((lower(`name`))));".

Lemma kx_reads : forall reserved, exists cds, read_sql reserved kx_ddl = Some [SCreateTable "user" cds [KExpr]].
Proof. intros reserved. eexists. vm_compute. reflexivity. Qed.

Lemma ddl_crashes : forall w fs v reserved, reads_sql w reserved -> v "input" <> None -> v "output" <> None ->
  fs (given v "input") = Some kx_ddl -> ~ listed (given v "excludes") "user" ->
  run w fs ImportMysql v = ([], Crashed).
Proof.
  intros w fs v reserved W I O F X. destruct (kx_reads reserved) as [cds R].
  apply (mysql_crash w fs v kx_ddl _ I O F (W _ _ R)).
  exists (SCreateTable "user" cds [KExpr]), "user". split; [now left|]. split; [exists cds, [KExpr]; split; [reflexivity|now left]|exact X].
Qed.

(** ** Concrete crashes, one of each cause *)
Definition kx_schema : schema := mkSchema "a" "n" "1"
  [mkTable "user" [mkCol "gid" "int64" "" 0 0 false false false false "" "" [] (Some (mkRef "team" "id" ""))] "" "g" "" []].
Definition kx_text : string := saved_text (to_text isort_tables kx_schema).
Definition kx_values (opt value : string) : values :=
  option_values [("input", "a.json"); ("output", "o"); ("from", "a.json"); ("to", "b.json"); (opt, value)].
Definition kx_run (text : string) (c : command) (opt value : string) : outcome :=
  run sample_world (fun _ => Some text) c (kx_values opt value).
Definition kx_unnamed : string := "{""version"": ""1"", ""tables"": [{""name"": ""t"", ""columns"": [{""type"": ""long"", ""size"": 7}]}]}".
Definition kx_project : string := "{""_type"": ""Project"", ""_id"": ""1"", ""name"": ""p"", ""ownedElements"": [null]}".

Lemma crash_cases :
  map (fun c => kx_run null_text c "" "")
    [ImportOjson; ExportDbml; ExportQuickdbd; ExportMysql; ExportXlsx; GenerateGorm; GenerateGraphql; GenerateKt;
     GenerateLiquibase; GeneratePlantuml; GeneratePb; GenerateSqlalchemy; DiffFlyway; DiffLiquibase; DiffMd] = repeat ([], Crashed) 15 /\
  map (fun c => kx_run kx_text c "prefix" "g:G,h") [GenerateGorm; GenerateKt; GeneratePb; GenerateSqlalchemy] =
    repeat ([], Crashed) 4 /\
  kx_run kx_text GenerateKt "annotation" "g:@G,h" = ([], Crashed) /\
  kx_run kx_unnamed ImportOjson "" "" = ([], Crashed) /\
  kx_run kx_project ImportStaruml "" "" = ([], Crashed) /\
  kx_run kx_text GeneratePb "groups" "g" = ([], Crashed) /\ snd (kx_run kx_text GeneratePb "groups" "h") = Done /\
  snd (kx_run kx_text GenerateKt "reposPackage" "r") = Crashed /\ snd (kx_run kx_text GenerateKt "reposPackage" "") = Done.
Proof.
  split; [vm_compute; reflexivity|]. split; [vm_compute; reflexivity|]. split; [vm_compute; reflexivity|].
  split; [vm_compute; reflexivity|]. split; [vm_compute; reflexivity|]. split; [vm_compute; reflexivity|].
  split; [vm_compute; reflexivity|]. split; vm_compute; reflexivity.
Qed.

Definition kx_sql_values (excludes : string) : values := option_values [("input", "a.sql"); ("output", "o"); ("excludes", excludes)].
Lemma ddl_case :
  reads_sql end_world mx_reserved /\ ~ listed (given (kx_sql_values "team,users") "excludes") "user" /\
  run end_world (fun _ => Some kx_ddl) ImportMysql (kx_sql_values "team,users") = ([], Crashed) /\
  snd (run end_world (fun _ => Some kx_ddl) ImportMysql (kx_sql_values "user")) = Done.
Proof.
  split; [exact (proj1 mysql_case)|].
  split. { intros H. apply listed_iff in H. vm_compute in H. discriminate. }
  split; vm_compute; reflexivity.
Qed.
