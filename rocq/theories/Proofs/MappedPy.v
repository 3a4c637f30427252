(** SQLAlchemy classes and the tables of the database (C112) *)
From Coq Require Import String Ascii List NArith Bool Arith Lia.
From Verif.Model Require Import GoString Util Octopus Common Mysql Sqlalchemy.
From Verif.Spec Require Import Text OctopusSpec GraphqlSpec MysqlGrammar FlywaySpec MysqlSpec ServerSpec CreatedSpec MappedSpec.
From Verif.Proofs Require Import ListLemmas FlywayMigration ServerCases SqlalchemyMain Mapped.
From Verif.Spec Require Import SqlalchemySpec MappedPySpec.
Import ListNotations.
Local Open Scope string_scope.

(** ** The classes *)
Lemma says_keyword : forall utc c named ty kws k v, (named = [] \/ exists n, named = [("", EStr n)]) ->
  (forall a, In a kws <-> sa_keyword utc c a) -> k <> "" ->
  says (named ++ [("", ty)] ++ kws) k v = true <-> sa_keyword utc c (k, EName v).
Proof.
  intros utc c named ty kws k v N K NE. unfold says. rewrite existsb_exists, <- K. split.
  - intros [[x e] [I E]]. apply andb_prop in E. destruct E as [E1 E2]. cbn in E1, E2. apply String.eqb_eq in E1. subst x.
    destruct e as [|w|]; try discriminate. apply String.eqb_eq in E2. subst w.
    apply in_app_iff in I. destruct I as [I|I].
    + destruct N as [->|[n ->]]; [destruct I|]. destruct I as [I|[]]. congruence.
    + destruct I as [I|I]; [congruence|exact I].
  - intros I. exists (k, EName v). split; [rewrite !in_app_iff; auto|]. cbn. now rewrite !String.eqb_refl.
Qed.

Lemma type_arg_no_text : forall utc c ty, sa_type_arg utc c ty -> forall n, ty <> EStr n.
Proof. intros utc c ty H n E. destruct H; discriminate. Qed.

Lemma column_maps : forall snake utc c m, column_described snake utc c m ->
  column_in m = [(mkMapped (c_name c) (c_pk c) (required_unless_auto c) (c_autoinc c), c_uq c)].
Proof.
  intros snake utc c m [x [named [ty [kws [-> [_ [N [T [K _]]]]]]]]].
  assert (N' : named = [] \/ exists n, named = [("", EStr n)]) by (destruct N as [->|[-> _]]; eauto).
  assert (S : forall k v p, k <> "" -> (sa_keyword utc c (k, EName v) <-> p = true) -> says (named ++ [("", ty)] ++ kws) k v = p).
  { intros k v p NE H. apply bool_iff. rewrite (says_keyword utc c named ty kws k v N' K NE). exact H. }
  unfold column_in. rewrite String.eqb_refl.
  rewrite (S "primary_key" "True" (c_pk c)), (S "autoincrement" "True" (c_autoinc c)), (S "unique" "True" (c_uq c)),
    (S "nullable" "False" (c_notnull c && negb (c_autoinc c))); try discriminate.
  - replace (name_in x (named ++ [("", ty)] ++ kws)) with (c_name c); [reflexivity|].
    destruct N as [->|[-> ->]]; [reflexivity|]. cbn [app name_in].
    pose proof (type_arg_no_text _ _ _ T) as NT. destruct ty; try reflexivity. now destruct (NT s).
  - split; [intros H; inversion H as [| | |N1 N2| | ]; now rewrite N1, N2|].
    intros H. apply andb_prop in H. destruct H as [H1 H2]. apply negb_true_iff in H2. now constructor.
  - split; [intros H; now inversion H|intros H; now constructor].
  - split; [intros H; now inversion H|intros H; now constructor].
  - split; [intros H; now inversion H|intros H; now constructor].
Qed.

Lemma no_member : forall snake utc c m, column_described snake utc c m -> table_in m = [] /\ constraints_in m = [].
Proof.
  intros snake utc c m [x [named [ty [kws [-> _]]]]]. split; [reflexivity|]. cbn. now rewrite andb_false_r.
Qed.

Lemma columns_map : forall snake utc cs ms, Forall2 (column_described snake utc) cs ms ->
  flat_map column_in ms = map (fun c => (mkMapped (c_name c) (c_pk c) (required_unless_auto c) (c_autoinc c), c_uq c)) cs /\
  flat_map table_in ms = [] /\ flat_map constraints_in ms = [].
Proof.
  intros snake utc cs ms F. induction F as [|c m cs ms H F [I1 [I2 I3]]]; [auto|]. cbn.
  destruct (no_member _ _ _ _ H) as [E1 E2]. rewrite (column_maps _ _ _ _ H), E1, E2, I1, I2, I3. auto.
Qed.

Lemma class_maps : forall camel snake prefix unwanted suffix utc t b,
  class_described camel snake prefix unwanted suffix utc t b ->
  mapping_of b = Some (table_mapping required_unless_auto (map (fun c => (None, [c_name c])) (filter c_uq (t_cols t))) t).
Proof.
  intros camel snake prefix unwanted suffix utc t b [unique [columns [-> [C F]]]].
  destruct (columns_map _ _ _ _ F) as [E1 [E2 E3]].
  assert (U : flat_map column_in unique = [] /\ flat_map table_in unique = [] /\ flat_map constraints_in unique = []).
  { destruct C as [[_ ->]|[_ [xs [_ ->]]]]; auto. }
  destruct U as [U1 [U2 U3]]. unfold mapping_of. cbn [flat_map table_in]. rewrite String.eqb_refl.
  rewrite !flat_map_app, U2, E2. cbn [app]. cbn [flat_map column_in constraints_in app].
  rewrite ?flat_map_app, U1, E1, U3, E3. cbn [app]. f_equal. unfold table_mapping. f_equal.
  - rewrite map_map. reflexivity.
  - clear. induction (t_cols t) as [|c cs IH]; [reflexivity|]. cbn. destruct (c_uq c); cbn; now rewrite IH.
Qed.

Lemma python_fits : forall camel snake reserved o s output, python_path output ->
  py_names_ok camel snake (get_prefix (so_prefix o)) (so_remove o) (so_suffix o) (filter (passes (so_filter o)) (s_tables s)) ->
  proper reserved (so_suffix o) (selection (so_filter o) (s_tables s)) ->
  (forall t, In t (selection (so_filter o) (s_tables s)) -> length (filter c_uq (t_cols t)) <= 1 /\
     forall c, In c (t_cols t) -> c_autoinc c = true -> c_notnull c = true -> c_pk c = true) ->
  exists text f stmts bs, sa_generate camel snake o s output = [(output, text)] /\ read_python text = Some f /\
    read_sql reserved (my_export (so_filter o) (so_suffix o) s) = Some stmts /\ run_stmts [] (map MCreate stmts) = Some bs /\
    Forall2 (fun b m => exists g, mapping_of m = Some g /\ fits b g) bs (filter is_model f).
Proof.
  intros camel snake reserved o s output P N [Q1 [Q2 Q3]] H.
  destruct (single_main camel snake o s output P N) as [text [f [E [R [_ F]]]]].
  destruct (ddl_creates reserved (so_filter o) (so_suffix o) s [] Q1 Q2) as [stmts [bs [Rs [Rn Fb]]]]; auto.
  exists text, f, stmts, bs. repeat (split; [assumption|]).
  unfold file_described in F. rewrite selection_select in F.
  rewrite Forall_forall in Q3. clear Rn. revert bs Fb F H Q3. generalize (filter is_model f) as ms.
  clear. induction (selection (so_filter o) (s_tables s)) as [|t ts IH]; intros ms bs Fb F H Q3; inversion Fb; inversion F; subst; [constructor|].
  constructor.
  - eexists. split; [eapply class_maps; eassumption|]. destruct (H t (or_introl eq_refl)) as [L A].
    eapply table_fits; [eassumption|apply (ac_columns _ _ (Q3 t (or_introl eq_refl)))| |].
    + intros c I. apply required_same, A, I.
    + destruct (filter c_uq (t_cols t)) as [|c [|c' l]]; [left; auto| |cbn in L; lia].
      right. split; [discriminate|]. split; [discriminate|]. intros u [<-|[]]. split; [now left|]. cbn. intros k. reflexivity.
  - eapply IH; eauto; intros; [apply H|apply Q3]; now right.
Qed.
