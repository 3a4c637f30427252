(** The values of the options reach the generated files *)
From Coq Require Import String Ascii List NArith ZArith Bool Lia.
From Verif.Model Require Import GoString Util Octopus Common Gorm Graphql Protobuf Sqlalchemy Jpa Dbml Quickdbd Plantuml Liquibase DiffCore Cli.
From Verif.Spec Require Import Text Order CommonSpec JsonSpec CliSpec OptionsSpec GroupSpec EndSpec WiringSpec.
From Verif.Spec Require Reading GormSpec GraphqlSpec ProtobufSpec SqlalchemySpec KotlinSpec DbmlSpec QuickdbdSpec PlantumlSpec Database LiquibaseSpec.
From Verif.Proofs Require Import ListLemmas StringLemmas CommonProofs CliGroups CliWrites.
From Verif.Proofs Require GormProofs GormText GraphqlProofs ProtobufProofs SqlalchemyMain JpaMain DbmlProofs QuickdbdProofs PlantumlProofs SchemaMigration.
Import ListNotations.
Local Open Scope string_scope.

(** ** The values *)

Lemma parts_split : forall c opt, parts_of c opt (split_char c opt).
Proof.
  intros c opt. split; [apply split_char_nonempty|]. split; [intros p; apply split_char_clean|]. symmetry. apply split_char_join.
Qed.

Lemma pairs_exist : forall toks, (forall t, In t toks -> char_in ":" t /\ ~ char_in "," t) ->
  exists l, toks = map (fun p => fst p ++ ":" ++ snd p) l /\
    forall g x, In (g, x) l -> ~ char_in "," g /\ ~ char_in "," x /\ ~ char_in ":" g.
Proof.
  induction toks as [|t toks IH]; intros H; [exists []; split; [reflexivity|intros g x []]|].
  destruct IH as (l & E & C); [intros; apply H; now right|]. destruct (H t (or_introl eq_refl)) as [A B].
  destruct (split_once ":" t) as [g [x|]] eqn:S.
  - apply split_once_some in S as [-> S]. exists ((g, x) :: l). split; [now rewrite E|].
    intros g' x' [F|I]; [|now apply C]. injection F as <- <-. rewrite char_in_app in B. cbn [char_in] in B.
    split; [tauto|]. split; [tauto|exact S].
  - apply split_once_none in S as [-> S]. contradiction.
Qed.

Lemma last_value : forall (l : list (string * string)) g, (exists x, value_for l g x) \/ ~ In g (map fst l).
Proof.
  induction l as [|[k x] l IH]; intros g; [right; intros []|]. destruct (IH g) as [(y & l1 & l2 & -> & N)|N].
  - left. exists y, ((k, x) :: l1)%list, l2. split; [reflexivity|exact N].
  - destruct (string_dec k g) as [->|D]; [left; exists x, [], l; split; [reflexivity|exact N]|].
    right. cbn. tauto.
Qed.

Lemma group_list : forall opt, char_in ":" opt -> ~ (char_in ":" opt /\ exists t, In t (split_char "," opt) /\ ~ char_in ":" t) ->
  exists l, group_values opt l.
Proof.
  intros opt C N. destruct (pairs_exist (split_char "," opt)) as (l & E & H).
  - intros t I. split; [|eapply split_char_clean; exact I]. destruct (contains_char ":" t) eqn:X; [now apply contains_char_iff|].
    exfalso. apply N. split; [exact C|]. exists t. split; [exact I|]. now apply contains_char_false.
  - exists l. split; [intros ->; apply (split_char_nonempty "," opt); exact E|]. split; [|exact H].
    unfold pairs_text. rewrite <- E. symmetry. apply split_char_join.
Qed.

Lemma prefix_wired : forall opt pm, new_prefix_mapper opt = Ok pm -> prefix_for opt (get_prefix pm).
Proof.
  intros opt pm E. destruct (contains_char ":" opt) eqn:X.
  - right. apply contains_char_iff in X. destruct (group_list opt X) as (l & G).
    { intros P. apply prefix_panic in P. congruence. }
    exists l. split; [exact G|]. destruct G as (G & -> & H). destruct (prefix_pairs l G H) as (p & E' & A & B).
    rewrite E in E'. injection E' as <-. intros g. destruct (last_value l g) as [(x & V)|N].
    + left. pose proof V as (l1 & l2 & L & N). now rewrite (A l1 g x l2 L N).
    + right. split; [exact N|now apply B].
  - left. apply contains_char_false in X. split; [exact X|]. destruct (prefix_plain opt X) as (p & E' & A).
    rewrite E in E'. now injection E' as <-.
Qed.

Lemma anno_wired : forall opt am, new_anno_mapper opt = Ok am -> annotations_for opt (get_annotations am).
Proof.
  intros opt pm E. destruct (contains_char ":" opt) eqn:X.
  - right. apply contains_char_iff in X. destruct (group_list opt X) as (l & G).
    { intros P. apply anno_panic in P. congruence. }
    exists l. split; [exact G|]. destruct G as (G & -> & H). destruct (anno_pairs l G H) as (p & E' & A & B).
    rewrite E in E'. injection E' as <-. intros g. destruct (last_value l g) as [(x & V)|N].
    + left. exists x. split; [exact V|]. destruct V as (l1 & l2 & L & N). destruct (parts_split ";" x) as (P & Q & R).
      rewrite (A l1 g (split_char ";" x) l2); [apply parts_split| |exact N|exact P|exact Q]. now rewrite <- R.
    + right. split; [exact N|now apply B].
  - left. apply contains_char_false in X. split; [exact X|]. destruct (anno_plain opt X) as (p & E' & A).
    rewrite E in E'. now injection E' as <-.
Qed.

Lemma picked_passes : forall opt ts, picked (chosen opt) ts (filter (passes (get_table_filter opt)) ts).
Proof.
  intros opt. induction ts as [|t ts IH]; cbn [filter]; [constructor|].
  destruct (passes (get_table_filter opt) t) eqn:E.
  - apply picked_in; [now apply chosen_iff|exact IH].
  - apply picked_out; [|exact IH]. intros C. apply chosen_iff in C. congruence.
Qed.

Lemma model_char_iff : forall c, is_model_char c = true <-> model_char c.
Proof.
  intros c. unfold is_model_char, is_letter, is_upper, is_lower, is_digit, model_char, byte, nat_of_ascii.
  rewrite !orb_true_iff, !andb_true_iff, !Nat.leb_le, !Ascii.eqb_eq. generalize (N_of_ascii c). intros n.
  assert (A : forall k, (k <= N.to_nat n)%nat <-> (N.of_nat k <= n)%N) by (intros; lia).
  assert (B : forall k, (N.to_nat n <= k)%nat <-> (n <= N.of_nat k)%N) by (intros; lia).
  rewrite !A, !B. cbn [N.of_nat Pos.of_succ_nat Pos.succ]. tauto.
Qed.

Lemma parse_embeds : forall opt n cols, parse_embed opt = Some (n, cols) <-> embeds opt n cols.
Proof.
  intros opt n cols. unfold parse_embed, embeds. destruct (split_once ":" opt) as [k [x|]] eqn:S.
  - apply split_once_some in S as [-> S].
    destruct (negb (String.eqb k "") && string_forallb is_model_char k && negb (contains_char "010" x)) eqn:E.
    + apply andb_true_iff in E as [E E3]. apply andb_true_iff in E as [E1 E2].
      apply negb_true_iff in E1, E3. apply String.eqb_neq in E1. apply contains_char_false in E3. split.
      * intros H. injection H as <- <-. exists x. split; [reflexivity|]. split; [exact E1|].
        split; [intros c I; apply model_char_iff; exact (forallb_char_in _ _ _ E2 I)|]. split; [exact E3|].
        destruct (String.eqb_spec x "") as [->|D]; [now left|]. right. split; [exact D|apply parts_split].
      * intros (x' & O & D & M & _ & P).
        assert (Hn : k = n /\ x = x').
        { assert (X : split_once ":" (k ++ String ":" x) = (n, Some x')).
          { rewrite O. apply split_once_some. split; [reflexivity|]. intros I.
            apply M in I. apply model_char_iff in I. discriminate. }
          change (String ":" x) with (":" ++ x) in X; rewrite (split_once_pair k x S) in X. injection X as <- <-. split; reflexivity. }
        destruct Hn as [<- <-]. destruct P as [[-> ->]|[D' P]]; [reflexivity|].
        destruct (String.eqb_spec x "") as [E|_]; [contradiction|]. destruct P as (P & Q & R).
        rewrite R, split_char_of_join by assumption. reflexivity.
    + split; [discriminate|]. intros (x' & O & D & M & L & P). exfalso.
      assert (X : split_once ":" (k ++ String ":" x) = (n, Some x')).
      { rewrite O. apply split_once_some. split; [reflexivity|]. intros I. apply M in I. apply model_char_iff in I. discriminate. }
      change (String ":" x) with (":" ++ x) in X; rewrite (split_once_pair k x S) in X. injection X as <- <-.
      assert (String.eqb k "" = false) by now apply String.eqb_neq.
      assert (contains_char "010" x = false) by now apply contains_char_false.
      assert (string_forallb is_model_char k = true).
      { clear - M. induction k as [|c k IH]; [reflexivity|]. cbn [string_forallb]. rewrite IH by (intros; apply M; now right).
        rewrite (proj2 (model_char_iff c)) by (apply M; now left). reflexivity. }
      rewrite H, H0, H1 in E. discriminate.
  - apply split_once_none in S as [-> S]. split; [discriminate|]. intros (x & -> & _). exfalso. apply S.
    apply char_in_app. right. now left.
Qed.

Lemma models_wired : forall opt, models_with opt (embed_models default_models opt).
Proof.
  intros opt. split.
  - exact (proj1 (GormProofs.embed_ok default_models opt GormProofs.default_ok)).
  - unfold embed_models. pose proof (parse_embeds opt) as P. intros n cols.
    destruct (String.eqb_spec opt "") as [->|D].
    + cbn [default_models register_model In]. change (parse_embed "") with (@None (string * list string)) in P. split.
      * intros [E|[]]. injection E as <- <-. right. split; [reflexivity|]. split; [reflexivity|].
        intros cols' H. apply P in H. discriminate.
      * intros [H|(-> & -> & _)]; [apply P in H; discriminate|now left].
    + destruct (parse_embed opt) as [[k x]|] eqn:E.
      * assert (K : embeds opt k x) by now apply P.
        assert (U : forall n' cols', embeds opt n' cols' -> n' = k /\ cols' = x).
        { intros n' cols' H. apply P in H. split; congruence. }
        cbn [default_models register_model]. destruct (String.eqb_spec k "gorm.Model") as [->|N]; cbn [In].
        -- split.
           ++ intros [F|[]]. left. injection F as <- <-. exact K.
           ++ intros [H|(-> & -> & H)]; [apply U in H as [-> ->]; now left|exfalso; exact (H x K)].
        -- split.
           ++ intros [F|[F|[]]]; injection F as <- <-; [right|now left].
              split; [reflexivity|]. split; [reflexivity|]. intros cols' H. apply U in H as [H _]. congruence.
           ++ intros [H|(-> & -> & _)]; [apply U in H as [-> ->]; right; now left|now left].
      * cbn [default_models register_model In]. split.
        -- intros [F|[]]. injection F as <- <-. right. split; [reflexivity|]. split; [reflexivity|].
           intros cols' H. apply P in H. discriminate.
        -- intros [H|(-> & -> & _)]; [apply P in H; discriminate|now left].
Qed.

Lemma switch_wired : forall c v n, declared c n = true -> (flag_bool c v n = true <-> switched_on v n).
Proof.
  intros c v n D. unfold flag_bool, flag_string, switched_on, given. rewrite D, str_in_iff. reflexivity.
Qed.

(** ** The commands *)

Lemma gorm_command : forall w fs v ws, real_world w -> run w fs GenerateGorm v = (ws, Done) ->
  exists s prefix remove ts ms pointer path text,
    load_file w fs (given v "input") = Loaded s /\ ws = [(path, text)] /\
    prefix_for (given v "prefix") prefix /\ parts_of "," (given v "removePrefix") remove /\
    picked (chosen (given v "groups")) (s_tables s) ts /\ models_with (given v "embed") ms /\
    (pointer = true <-> switched_on v "pointerAssociation") /\
    (GormSpec.go_names_ok (w_camel w) prefix remove (given v "uniqueNameSuffix") (s_tables s) ts ->
     Reading.one_line (given v "package") ->
     exists f, GormSpec.read_go text = Some f /\
       GormSpec.gf_package f = (if String.eqb (given v "package") "" then "main" else given v "package") /\
       Forall2 (GormSpec.decl_described (w_camel w) (w_snake w) prefix remove pointer (given v "uniqueNameSuffix") ms (s_tables s))
         ts (GormSpec.gf_decls f)).
Proof.
  intros w fs v ws (_ & _ & _ & _ & _ & HM & HN) R. open_action R. branches R; try congruence.
  match goal with P : new_prefix_mapper _ = Ok ?p |- _ => rename P into Ep; rename p into pm end.
  match goal with L : load_file _ _ _ = Loaded ?x |- _ => rename L into El; rename x into s end.
  exists s, (get_prefix pm), (split_char "," (given v "removePrefix")),
    (filter (passes (get_table_filter (given v "groups"))) (s_tables s)), (embed_models default_models (given v "embed")),
    (flag_bool GenerateGorm v "pointerAssociation").
  injection R as <-. eexists. eexists. split; [exact El|]. split; [reflexivity|].
  split; [now apply prefix_wired|]. split; [apply parts_split|]. split; [apply picked_passes|].
  split; [apply models_wired|]. split; [now apply switch_wired|]. intros N P.
  exact (GormText.file_described (w_camel w) (w_snake w) (w_ord_models w) (w_ord_names w) HM HN default_models
    (mkGormOpt (given v "embed") (get_table_filter (given v "groups")) (given v "package")
       (flag_bool GenerateGorm v "pointerAssociation") pm (split_char "," (given v "removePrefix")) (given v "uniqueNameSuffix"))
    s GormProofs.default_ok N P).
Qed.

Lemma kt_command : forall w fs v ws, run w fs GenerateKt v = (ws, Done) ->
  exists s annos prefix remove ts,
    load_file w fs (given v "input") = Loaded s /\ annotations_for (given v "annotation") annos /\
    prefix_for (given v "prefix") prefix /\ parts_of "," (given v "removePrefix") remove /\
    picked (chosen (given v "groups")) (s_tables s) ts /\
    forall wanted,
      KotlinSpec.kt_names_ok (w_camel w) (w_lower_camel w) prefix remove (given v "idEntity") (given v "relation") (given v "uniqueNameSuffix") ts ->
      KotlinSpec.package_ok (given v "package") ->
      (forall t, In t ts -> KotlinSpec.annotations (annos (t_group t)) (wanted (t_group t))) ->
      (given v "reposPackage" = "" \/ KotlinSpec.package_ok (given v "reposPackage") /\ forall t, In t ts -> KotlinSpec.keys t <> []) ->
      exists entities repos, ws = (entities ++ repos)%list /\
        Forall2 (fun t file =>
           fst file = w_join w [w_join w (given v "output" :: Reading.split_on "." (given v "package"));
                                KotlinSpec.class_named (w_camel w) prefix remove t ++ ".kt"] /\
           exists f, KotlinSpec.read_kotlin (snd file) = Some f /\ KotlinSpec.ki_package f = Reading.split_on "." (given v "package") /\
             KotlinSpec.entity_described (w_camel w) (w_lower_camel w) (w_snake w) prefix wanted remove (given v "idEntity")
               (given v "relation") (given v "uniqueNameSuffix") ts t (KotlinSpec.ki_decls f)) ts entities /\
        (given v "reposPackage" = "" /\ repos = [] \/
         given v "reposPackage" <> "" /\
         Forall2 (fun t file =>
           fst file = w_join w [w_join w (given v "output" :: Reading.split_on "." (given v "reposPackage"));
                                KotlinSpec.class_named (w_camel w) prefix remove t ++ "Repository.kt"] /\
           exists f, KotlinSpec.read_kotlin (snd file) = Some f /\ KotlinSpec.ki_package f = Reading.split_on "." (given v "reposPackage") /\
             KotlinSpec.repository_described (w_camel w) prefix remove (Reading.split_on "." (given v "package")) t f) ts repos).
Proof.
  intros w fs v ws R. unfold run, action, generate_kt, with_schema, with_res, failed, crashed, not_modelled in R.
  destruct (required_given GenerateKt v); [|discriminate R].
  destruct (load_file w fs _) as [s| | | |] eqn:El in R; [|congruence..].
  destruct (new_anno_mapper _) as [am|] eqn:Ea in R; [|congruence].
  destruct (new_prefix_mapper _) as [pm|] eqn:Ep in R; [|congruence].
  exists s, (get_annotations am), (get_prefix pm), (split_char "," (given v "removePrefix")),
    (filter (passes (get_table_filter (given v "groups"))) (s_tables s)).
  split; [exact El|]. split; [now apply anno_wired|]. split; [now apply prefix_wired|]. split; [apply parts_split|].
  split; [apply picked_passes|]. intros wanted N P A K.
  destruct (JpaMain.files_described (w_camel w) (w_lower_camel w) (w_snake w) (w_join w)
    (mkKtOpt am pm (get_table_filter (given v "groups")) (given v "idEntity") (given v "package") (given v "relation")
       (split_char "," (given v "removePrefix")) (given v "reposPackage") (given v "uniqueNameSuffix"))
    s (given v "output") wanted N P A K) as (entities & repos & G & D).
  exists entities, repos. split; [|exact D].
  match type of R with (let '(_, _) := ?k in _) = _ => change k with
    (kt_generate (w_camel w) (w_lower_camel w) (w_snake w) (w_join w)
    (mkKtOpt am pm (get_table_filter (given v "groups")) (given v "idEntity") (given v "package") (given v "relation")
       (split_char "," (given v "removePrefix")) (given v "reposPackage") (given v "uniqueNameSuffix")) s (given v "output")) in R end.
  rewrite G in R. congruence.
Qed.

Lemma sqlalchemy_command : forall w fs v ws, run w fs GenerateSqlalchemy v = (ws, Done) ->
  exists s prefix remove ts utc,
    load_file w fs (given v "input") = Loaded s /\ prefix_for (given v "prefix") prefix /\
    parts_of "," (given v "removePrefix") remove /\ picked (chosen (given v "groups")) (s_tables s) ts /\
    (utc = true <-> switched_on v "useUTC") /\
    (SqlalchemySpec.py_names_ok (w_camel w) (w_snake w) prefix remove (given v "uniqueNameSuffix") ts ->
     (SqlalchemySpec.python_path (given v "output") -> exists text f,
        ws = [(given v "output", text)] /\ SqlalchemySpec.read_python text = Some f /\ SqlalchemySpec.names_known f /\
        SqlalchemySpec.file_described (w_camel w) (w_snake w) prefix remove (given v "uniqueNameSuffix") utc ts f) /\
     (~ SqlalchemySpec.python_path (given v "output") -> (forall t, In t ts -> t_cols t <> []) ->
        Forall2 (fun t file => fst file = given v "output" ++ "/" ++ t_name t ++ ".py" /\
            exists f, SqlalchemySpec.read_python (snd file) = Some f /\
              SqlalchemySpec.file_described (w_camel w) (w_snake w) prefix remove (given v "uniqueNameSuffix") utc [t] f) ts ws)).
Proof.
  intros w fs v ws R. open_action R. branches R; try congruence.
  match goal with P : new_prefix_mapper _ = Ok ?p |- _ => rename P into Ep; rename p into pm end.
  match goal with L : load_file _ _ _ = Loaded ?x |- _ => rename L into El; rename x into s end.
  exists s, (get_prefix pm), (split_char "," (given v "removePrefix")),
    (filter (passes (get_table_filter (given v "groups"))) (s_tables s)), (flag_bool GenerateSqlalchemy v "useUTC").
  injection R as <-. split; [exact El|]. split; [now apply prefix_wired|]. split; [apply parts_split|].
  split; [apply picked_passes|]. split; [now apply switch_wired|]. intros N. 
  set (o := mkSaOpt pm (get_table_filter (given v "groups")) (split_char "," (given v "removePrefix"))
    (given v "uniqueNameSuffix") (flag_bool GenerateSqlalchemy v "useUTC")).
  split; intros P.
  - exact (SqlalchemyMain.single_main (w_camel w) (w_snake w) o s (given v "output") P N).
  - exact (SqlalchemyMain.separate_described (w_camel w) (w_snake w) o s (given v "output") P N).
Qed.

Lemma pb_command : forall w fs v ws, run w fs GeneratePb v = (ws, Done) ->
  exists s prefix remove ts text,
    load_file w fs (given v "input") = Loaded s /\ ws = [(given v "output", text)] /\
    prefix_for (given v "prefix") prefix /\ parts_of "," (given v "removePrefix") remove /\
    picked (chosen (given v "groups")) (s_tables s) ts /\
    (ProtobufSpec.pb_names_ok (w_camel w) (w_lower_camel w) prefix remove (s_tables s) ts ->
     Reading.one_line (given v "package") -> Reading.one_line (given v "goPackage") ->
     (forall t, In t (s_tables s) -> ProtobufSpec.fits (-1) (length (t_cols t))) ->
     exists l, ProtobufSpec.read_proto text = Some l /\
       ProtobufSpec.proto_described (w_camel w) (w_lower_camel w) prefix remove false (given v "package") (given v "goPackage")
         (s_tables s) ts l).
Proof.
  intros w fs v ws R. unfold run, action, generate_pb, with_schema, with_res, written, failed, crashed, not_modelled in R.
  destruct (required_given GeneratePb v); [|discriminate R].
  destruct (load_file w fs _) as [s| | | |] eqn:El in R; [|congruence..].
  destruct (pb_cli_option _ _ _ _ _ _ _) as [o|] eqn:Eo in R; [|congruence].
  destruct (pb_generate _ _ _ _) as [text|] eqn:Eg in R; [|congruence].
  unfold pb_cli_option in Eo. destruct (new_prefix_mapper _) as [pm|] eqn:Ep in Eo; [|discriminate].
  exists s, (get_prefix pm), (split_char "," (given v "removePrefix")),
    (filter (passes (get_table_filter (given v "groups"))) (s_tables s)), text.
  injection R as <-. split; [exact El|]. split; [reflexivity|].
  split; [now apply prefix_wired|]. split; [apply parts_split|]. split; [apply picked_passes|].
  intros N P Q F. injection Eo as <-.
  exact (ProtobufProofs.generate_reads (w_camel w) (w_lower_camel w)
    (mkPbOpt pm (get_table_filter (given v "groups")) (split_char "," (given v "removePrefix")) (given v "package") (given v "goPackage") (-1) false)
    s text P Q N F Eg).
Qed.

Lemma graphql_command : forall w fs v ws, run w fs GenerateGraphql v = (ws, Done) ->
  exists s path text,
    load_file w fs (given v "input") = Loaded s /\ ws = [(path, text)] /\
    let prefix := fun _ => "" in let remove := [""] in
    (GraphqlSpec.gql_names_ok (w_camel w) (w_lower_camel w) (w_plural w) prefix remove (s_tables s) ->
     exists query types,
       GraphqlSpec.read_graphql text =
         Some (GraphqlSpec.GSchema [("query", GraphqlSpec.GName "Query")] :: GraphqlSpec.GType "Query" query :: types) /\
       Forall2 (GraphqlSpec.type_described (w_camel w) (w_lower_camel w) prefix remove) (s_tables s) types /\
       query = map (fun t => (w_plural w (w_lower_camel w (GraphqlSpec.type_named (w_camel w) prefix remove t)),
                              GraphqlSpec.GList (GraphqlSpec.type_named (w_camel w) prefix remove t))) (s_tables s)).
Proof.
  intros w fs v ws R. open_action R. branches R; try congruence.
  match goal with L : load_file _ _ _ = Loaded ?x |- _ => rename L into El; rename x into s end.
  exists s. injection R as <-. eexists. eexists. split; [exact El|]. split; [reflexivity|]. intros prefix remove N.
  assert (F : forall ts, filter (passes None) ts = ts) by (induction ts as [|t ts IH]; cbn [filter passes]; [|rewrite IH]; reflexivity).
  match goal with P : new_prefix_mapper _ = Ok _ |- _ => injection P as <- end.
  pose proof (GraphqlProofs.graphql_reads (w_camel w) (w_lower_camel w) (w_plural w) None [""] (mkPM "" [] false) s) as G.
  rewrite F in G. exact (G N).
Qed.

Lemma liquibase_generated : forall w fs v ws, run w fs GenerateLiquibase v = (ws, Done) ->
  exists s ts css comments,
    load_file w fs (given v "input") = Loaded s /\ ws = [(given v "output", w_yaml w css)] /\
    picked (chosen (given v "groups")) (s_tables s) ts /\ (comments = true <-> switched_on v "comments") /\
    (forall t cols n, In (LqAddUniqueConstraint t cols n) (LiquibaseSpec.lq_all css) -> n = t ++ given v "uniqueNameSuffix") /\
    (NoDup (map t_name ts) -> (forall t, In t ts -> Database.well_formed t) -> forall sv,
     exists bs, Database.run_log sv css [] = Some bs /\ Forall2 (Database.fresh_table (w_float_ok w) comments) ts bs).
Proof.
  intros w fs v ws R. open_action R. branches R; try congruence.
  match goal with L : load_file _ _ _ = Loaded ?x |- _ => rename L into El; rename x into s end.
  match goal with L : lq_generate _ _ _ = Some ?x |- _ => rename L into Eg; rename x into css end.
  exists s, (filter (passes (get_table_filter (given v "groups"))) (s_tables s)), css, (flag_bool GenerateLiquibase v "comments").
  injection R as <-. split; [exact El|]. split; [reflexivity|]. split; [apply picked_passes|]. split; [now apply switch_wired|].
  split.
  - unfold lq_generate in Eg. cbn [lo_suffix lo_comments lo_filter] in Eg.
    change (flag_string GenerateLiquibase v "uniqueNameSuffix") with (given v "uniqueNameSuffix") in Eg. clear El.
    revert css Eg. generalize new_id. generalize (s_tables s).
    induction l as [|t ts IH]; intros id css H t0 cols n I; cbn [generate_tables] in H.
    + injection H as <-. destruct I.
    + destruct (negb (passes _ t)); [eapply IH; eassumption|].
      destruct (new_create_table_cs _ _ _ _ (bump_major id) t) as [[c1 i1]|] eqn:E; [|discriminate].
      destruct (generate_tables _ _ _ _ _ ts i1) as [r|] eqn:Er; [|discriminate]. injection H as <-.
      unfold LiquibaseSpec.lq_all in I. rewrite flat_map_app in I. apply in_app_iff in I as [I|I]; [|eapply IH; eassumption].
      clear - E I. unfold new_create_table_cs in E. cbv zeta in E.
      destruct (map_lq_columns _ _ _ _ (t_cols t)) as [l|]; [|discriminate]. unfold lq_emit in E.
      destruct (Nat.leb 2 (ss_size (pk_name_set t))), (Nat.leb 1 (ss_size (uq_name_set t))); cbn [fst snd app] in E;
        injection E as <- _; cbn [flat_map lq_changes app In] in I;
        repeat (destruct I as [I|I]; [first [discriminate I|injection I as <- _ <-; reflexivity]|]); destruct I.
  - intros D W sv. pose proof (SchemaMigration.lq_generate_runs (w_float_ok w) sv _ s css Eg) as G.
    rewrite <- SchemaMigration.passes_select in G. exact (G D W).
Qed.

Lemma dbml_command : forall w fs v ws, run w fs ExportDbml v = (ws, Done) ->
  exists s text, load_file w fs (given v "input") = Loaded s /\ ws = [(given v "output", text)] /\
    (DbmlSpec.dbml_ok s -> exists ds ls,
       DbmlSpec.read_dbml text = Some (map DbmlSpec.ITable ds ++ map DbmlSpec.IRef ls)%list /\
       DbmlSpec.tables_described [] (s_tables s) ds /\
       Sorting.Permutation.Permutation (flat_map DbmlSpec.inline_links ds ++ ls) (DbmlSpec.schema_links s)).
Proof.
  intros w fs v ws R. open_action R. branches R; try congruence.
  match goal with L : load_file _ _ _ = Loaded ?x |- _ => rename L into El; rename x into s end.
  exists s. injection R as <-. eexists. split; [exact El|]. split; [reflexivity|]. apply DbmlProofs.dbml_reads.
Qed.
Lemma quickdbd_command : forall w fs v ws, run w fs ExportQuickdbd v = (ws, Done) ->
  exists s text, load_file w fs (given v "input") = Loaded s /\ ws = [(given v "output", text)] /\
    (QuickdbdSpec.qdbd_ok s -> QuickdbdSpec.read_qdbd text = Some (map QuickdbdSpec.qtable_of (s_tables s))).
Proof.
  intros w fs v ws R. open_action R. branches R; try congruence.
  match goal with L : load_file _ _ _ = Loaded ?x |- _ => rename L into El; rename x into s end.
  exists s. injection R as <-. eexists. split; [exact El|]. split; [reflexivity|]. apply QuickdbdProofs.qdbd_reads.
Qed.
Lemma plantuml_command : forall w fs v ws, run w fs GeneratePlantuml v = (ws, Done) ->
  exists s path text, load_file w fs (given v "input") = Loaded s /\ ws = [(path, text)] /\
    (PlantumlSpec.puml_ok s -> exists es,
       PlantumlSpec.read_puml text = Some (es, map PlantumlSpec.relation_described (DbmlSpec.schema_links s)) /\
       Forall2 PlantumlSpec.entity_described (s_tables s) es).
Proof.
  intros w fs v ws R. open_action R. branches R; try congruence.
  match goal with L : load_file _ _ _ = Loaded ?x |- _ => rename L into El; rename x into s end.
  exists s. injection R as <-. eexists. eexists. split; [exact El|]. split; [reflexivity|]. apply PlantumlProofs.puml_reads.
Qed.
