(** Which files the commands write *)
From Coq Require Import String Ascii List NArith ZArith Bool.
From Verif.Model Require Import GoString GoPath Util Octopus Common Json JsonText Ojson OjsonText Staruml StarumlText Mysql Xlsx
  Dbml Quickdbd Plantuml Graphql Protobuf Gorm Sqlalchemy Jpa Liquibase DiffCore Diff DiffWriters Cli.
From Verif.Proofs Require Import StringLemmas CommonProofs SqlalchemyMain JpaMain JpaCases CliCases.
From Verif.Spec Require Import Text OctopusSpec CommonSpec KotlinSpec SqlalchemySpec CliSpec.
Import ListNotations.
Local Open Scope string_scope.

(** walks through the branches of a command *)
Ltac branches H :=
  repeat match type of H with
  | context [match ?x with _ => _ end] => destruct x eqn:?
  end.
Ltac open_action H :=
  unfold run, action, import_mysql, import_ojson, import_staruml_file, import_xlsx_file, export_dbml_file,
    export_quickdbd_file, export_mysql_file, export_xlsx_file, generate_gorm, generate_graphql,
    generate_liquibase, generate_plantuml, generate_pb, generate_sqlalchemy, diff_flyway, diff_liquibase, diff_md,
    with_schemas, with_schema, with_res, save_schema, written, failed, crashed, not_modelled in H.

Lemma nothing_left : forall w fs c v ws e, c <> GenerateKt -> run w fs c v = (ws, e) -> e <> Done -> ws = [].
Proof.
  intros w fs c v ws e K R E. destruct c; try congruence; open_action R; branches R; congruence.
Qed.

Lemma kt_left : forall w fs v ws e, run w fs GenerateKt v = (ws, e) -> e <> Done -> ws <> [] ->
  exists s t, load_file w fs (given v "input") = Loaded s /\ In t (s_tables s) /\
    (given v "reposPackage" <> "" /\ keys t = [] \/
     given v "relation" = "VRelation" /\ exists c r, In c (t_cols t) /\ c_ref c = Some r).
Proof.
  intros w fs v ws e R E W. unfold run, action, generate_kt, with_schema, with_res, failed, crashed, not_modelled in R.
  destruct (required_given GenerateKt v); [|congruence].
  change (flag_string GenerateKt v "input") with (given v "input") in R.
  destruct (load_file w fs (given v "input")) as [s| | | |]; [|congruence..]. exists s.
  destruct (new_anno_mapper _) as [am|]; [|congruence]. destruct (new_prefix_mapper _) as [pm|]; [|congruence].
  match type of R with context [kt_generate _ _ _ _ ?opt _ _] => set (o := opt) in * end.
  destruct (kt_generate _ _ _ _ o s (flag_string GenerateKt v "output")) as [ws' e'] eqn:G.
  assert (N : e' <> KtDone) by (intros ->; congruence).
  assert (ND : ~ ((forall t c, In t (filter (passes (ko_filter o)) (s_tables s)) -> In c (t_cols t) ->
     resolved (w_camel w) (get_prefix (ko_prefix o)) (ko_remove o) (ko_relation o) (filter (passes (ko_filter o)) (s_tables s)) c) /\
     (ko_repos o = "" \/ forall t, In t (filter (passes (ko_filter o)) (s_tables s)) -> keys t <> []))).
  { intros D. apply (done_iff (w_camel w) (w_lower_camel w) (w_snake w) (w_join w) o s (flag_string GenerateKt v "output")) in D.
    rewrite G in D. now apply N. }
  change (ko_repos o) with (given v "reposPackage") in ND. change (ko_relation o) with (given v "relation") in ND.
  set (ts := filter (passes (ko_filter o)) (s_tables s)) in *.
  assert (I : forall t, In t ts -> In t (s_tables s)) by (intros t T; now apply filter_In in T).
  (* the decidable search *)
  destruct (existsb (fun t => match keys t with [] => true | _ => false end) ts && negb (String.eqb (given v "reposPackage") "")) eqn:X.
  - apply andb_true_iff in X as [X Y]. apply existsb_exists in X as (t & T & X). exists t. split; [reflexivity|].
    split; [now apply I|]. left. split; [intros Z; now rewrite Z in Y|]. destruct (keys t); congruence.
  - destruct (existsb (fun t => existsb (fun c => match c_ref c with Some _ => true | None => false end) (t_cols t)) ts
              && String.eqb (given v "relation") "VRelation") eqn:Y.
    + apply andb_true_iff in Y as [Y Z]. apply existsb_exists in Y as (t & T & Y). apply existsb_exists in Y as (c & C & Y).
      exists t. split; [reflexivity|]. split; [now apply I|]. right. split; [now apply String.eqb_eq|].
      exists c. destruct (c_ref c) as [r|]; [|discriminate]. exists r. auto.
    + exfalso. apply ND. split.
      * intros t c T C r Rel Rf. exfalso. apply andb_false_iff in Y as [Y|Y].
        -- assert (Q : existsb (fun t => existsb (fun c => match c_ref c with Some _ => true | None => false end) (t_cols t)) ts = true).
           { apply existsb_exists. exists t. split; [exact T|]. apply existsb_exists. exists c. split; [exact C|]. now rewrite Rf. }
           congruence.
        -- apply String.eqb_neq in Y. contradiction.
      * apply andb_false_iff in X as [X|X].
        -- right. intros t T K.
           assert (Q : existsb (fun t => match keys t with [] => true | _ => false end) ts = true).
           { apply existsb_exists. exists t. split; [exact T|]. now rewrite K. }
           congruence.
        -- left. apply negb_false_iff in X. now apply String.eqb_eq.
Qed.

(** a table with a key, a table without one *)
Definition half_schema : schema :=
  mkSchema "" "" "" [mkTable "a" [kt_col "id" "int64" 0 0 true true false false None] "" "" "" [];
                     mkTable "b" [kt_col "x" "int64" 0 0 true false false false None] "" "" "" []].
Definition half_text : string := saved_text (to_text isort_tables half_schema).
Lemma half_written : exists w fs v ws e, run w fs GenerateKt v = (ws, e) /\ e <> Done /\ ws <> [].
Proof.
  exists sample_world, (fun _ => Some half_text),
    (option_values [("input", "db.json"); ("output", "out"); ("package", "p"); ("reposPackage", "r")]).
  eexists (fst (run sample_world (fun _ => Some half_text) GenerateKt
    (option_values [("input", "db.json"); ("output", "out"); ("package", "p"); ("reposPackage", "r")]))), Crashed.
  split; [vm_compute; reflexivity|]. split; [discriminate|]. vm_compute. discriminate.
Qed.

(** ** Paths *)

Lemma one_output : forall w fs c v ws, single_file c -> run w fs c v = (ws, Done) ->
  exists text, ws = [(given v "output", text)].
Proof.
  intros w fs c v ws S R. unfold single_file in S.
  repeat (destruct S as [<-|S]; [open_action R; branches R; try congruence;
    injection R as <-; eexists; reflexivity|]). destruct S.
Qed.

Lemma ext_cases : forall f, (exists pre e, f = pre ++ "." ++ e /\ clean_ext e /\ filepath_ext f = "." ++ e) \/
  (filepath_ext f = "" /\ forall pre e, f = pre ++ "." ++ e -> ~ clean_ext e).
Proof.
  intros f. destruct (filepath_cases f) as [[pre [e [C ->]]]|[dir [base [C H]]]].
  - left. exists pre, e. split; [reflexivity|]. split; [exact C|]. now apply filepath_ext_dot.
  - right. assert (E : filepath_ext f = "") by (apply (filepath_ext_none f dir base); auto). split; [exact E|].
    intros pre e -> C'. rewrite filepath_ext_dot in E by exact C'. discriminate.
Qed.

Lemma output_file_spec : forall w es output name,
  (has_extension es output -> output_file w (map (fun e => "." ++ e) es) output name = output) /\
  (~ has_extension es output -> output_file w (map (fun e => "." ++ e) es) output name = w_join w [output; name]).
Proof.
  intros w es output name. unfold output_file. destruct (ext_cases output) as [(pre & e & E & C & X)|[X N]]; rewrite X.
  - assert (Q : str_in (to_lower ("." ++ e)) (map (fun e => "." ++ e) es) = true <-> In (to_lower e) es).
    { rewrite str_in_iff, in_map_iff. split.
      - intros (y & Y & I). rewrite lower_clean in Y. injection Y as <-. exact I.
      - intros I. exists (to_lower e). now rewrite lower_clean. }
    split.
    + intros (pre' & e' & E' & C' & I). assert (e' = e).
      { pose proof (filepath_ext_dot pre' e' C') as Y. rewrite <- E', X in Y. now injection Y. }
      subst e'. now rewrite (proj2 Q I).
    + intros H. destruct (str_in _ _) eqn:Z; [|reflexivity]. exfalso. apply H. exists pre, e. split; [exact E|].
      split; [exact C|]. now apply Q.
  - assert (Z : str_in (to_lower "") (map (fun e => "." ++ e) es) = false).
    { apply str_in_false. rewrite in_map_iff. intros (y & Y & _). discriminate. }
    rewrite Z. split; [|reflexivity]. intros (pre & e & E & C & _). exfalso. exact (N pre e E C).
Qed.

Lemma gorm_output : forall w fs v ws, run w fs GenerateGorm v = (ws, Done) ->
  exists path text, ws = [(path, text)] /\
    (has_extension ["go"] (given v "output") -> path = given v "output") /\
    (~ has_extension ["go"] (given v "output") -> path = w_join w [given v "output"; "output.go"]).
Proof.
  intros w fs v ws R. open_action R. branches R; try congruence.
  injection R as <-. eexists. eexists. split; [reflexivity|].
  exact (output_file_spec w ["go"] (given v "output") "output.go").
Qed.
Lemma plantuml_output : forall w fs v ws, run w fs GeneratePlantuml v = (ws, Done) ->
  exists path text, ws = [(path, text)] /\
    (has_extension ["wsd"; "pu"; "puml"; "plantuml"; "iuml"] (given v "output") -> path = given v "output") /\
    (~ has_extension ["wsd"; "pu"; "puml"; "plantuml"; "iuml"] (given v "output") ->
       path = w_join w [given v "output"; "output.plantuml"]).
Proof.
  intros w fs v ws R. open_action R. branches R; try congruence.
  injection R as <-. eexists. eexists. split; [reflexivity|].
  exact (output_file_spec w ["wsd"; "pu"; "puml"; "plantuml"; "iuml"] (given v "output") "output.plantuml").
Qed.
Lemma graphql_output : forall w fs v ws, run w fs GenerateGraphql v = (ws, Done) ->
  exists s text, load_file w fs (given v "input") = Loaded s /\
    ws = [(w_join w [given v "output"; s_name s ++ "-" ++ s_version s ++ ".graphqls"], text)].
Proof.
  intros w fs v ws R. open_action R. change (flag_string GenerateGraphql v "input") with (given v "input") in R.
  branches R; try congruence. injection R as <-. eexists. eexists. split; reflexivity.
Qed.
Lemma each_names : forall o ks sa im,
  map fst (sa_each o sa im ks) = map (fun k => t_name (sc_table k) ++ ".py") ks.
Proof. intros o ks. induction ks as [|k ks IH]; intros sa im; [reflexivity|]. cbn. now rewrite IH. Qed.

Lemma py_path : forall p, has_extension ["py"] p <-> python_path p.
Proof.
  intros p. split.
  - intros (pre & e & E & C & [I|[]]). exists pre, e. auto.
  - intros H. pose proof (ext_of p H) as X. destruct (ext_cases p) as [(pre & e & E & C & Y)|[Y _]]; rewrite Y in X; [|discriminate].
    exists pre, e. split; [exact E|]. split; [exact C|]. left. rewrite lower_clean in X. now injection X.
Qed.
Lemma sqlalchemy_output : forall w fs v ws, run w fs GenerateSqlalchemy v = (ws, Done) ->
  exists s ts, load_file w fs (given v "input") = Loaded s /\ incl ts (s_tables s) /\
    (given v "groups" = "" -> ts = s_tables s) /\
    (has_extension ["py"] (given v "output") -> map fst ws = [given v "output"]) /\
    (~ has_extension ["py"] (given v "output") ->
       map fst ws = map (fun t => given v "output" ++ "/" ++ t_name t ++ ".py") ts).
Proof.
  intros w fs v ws R. unfold run, action, generate_sqlalchemy, with_schema, with_res, failed, crashed, not_modelled in R.
  destruct (required_given GenerateSqlalchemy v); [|congruence].
  change (flag_string GenerateSqlalchemy v "input") with (given v "input") in R.
  destruct (load_file w fs (given v "input")) as [s| | | |]; [|congruence..].
  destruct (new_prefix_mapper _) as [pm|]; [|congruence]. injection R as <-.
  exists s. eexists (filter (passes (get_table_filter (given v "groups"))) (s_tables s)).
  split; [reflexivity|]. split; [intros t T; now apply filter_In in T|]. split.
  - intros ->. change (get_table_filter "") with (@None (table -> bool)). clear. induction (s_tables s) as [|t l IH]; [reflexivity|].
    cbn. now rewrite IH.
  - unfold sa_generate. change (flag_string GenerateSqlalchemy v "output") with (given v "output"). split; intros H.
    + apply py_path in H. now rewrite (ext_of _ H).
    + assert (N : ~ python_path (given v "output")) by (intros P; apply H; now apply py_path).
      rewrite (ext_not _ N). unfold sa_separate. rewrite map_map.
      match goal with |- map _ ?l = _ =>
        transitivity (map (fun n => given v "output" ++ "/" ++ n) (map fst l)); [now rewrite map_map|] end.
      rewrite each_names. unfold sa_classes.
      rewrite !map_map. reflexivity.
Qed.

(** ** The files are not where they should be *)

Definition escape_schema : schema := mkSchema "" "../../etc/x" "1" [mkTable "../a" [] "" "" "" []].
Definition escape_text : string := saved_text (to_text isort_tables escape_schema).
Definition escape_values : values := option_values [("input", "db.json"); ("output", "out/dir")].
Lemma graphql_escapes : exists w fs v path text, w_join w = path_join /\
  run w fs GenerateGraphql v = ([(path, text)], Done) /\ given v "output" = "out/dir" /\ path = "etc/x-1.graphqls".
Proof.
  exists sample_world, (fun _ => Some escape_text), escape_values, "etc/x-1.graphqls",
    (snd (hd ("", "") (fst (run sample_world (fun _ => Some escape_text) GenerateGraphql escape_values)))).
  split; [reflexivity|]. split; [vm_compute; reflexivity|]. split; reflexivity.
Qed.
Lemma sqlalchemy_escapes : exists w fs v path text,
  run w fs GenerateSqlalchemy v = ([(path, text)], Done) /\ given v "output" = "out/dir" /\ path = "out/dir/../a.py".
Proof.
  exists sample_world, (fun _ => Some escape_text), escape_values, "out/dir/../a.py",
    (snd (hd ("", "") (fst (run sample_world (fun _ => Some escape_text) GenerateSqlalchemy escape_values)))).
  split; [vm_compute; reflexivity|]. split; reflexivity.
Qed.
