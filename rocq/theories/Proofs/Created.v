(** The databases made by the DDL and by the change log (C111) *)
From Coq Require Import String Ascii List NArith ZArith Bool.
From Verif.Model Require Import GoString Util Octopus Liquibase Mysql DiffCore Diff DiffWriters.
From Verif.Spec Require Import Text MysqlGrammar MysqlSpec FlywaySpec LiquibaseSpec Database ServerSpec CreatedSpec.
From Verif.Proofs Require XlsxText.
From Verif.Proofs Require Import ListLemmas StringLemmas MysqlFacts SchemaMigration ServerCases.
Import ListNotations.
Local Open Scope string_scope.

(** ** Columns *)
Lemma common_same : forall fk c d ds, In (c_type c) col_types -> common_default c -> schema_default fk c = Some d -> default_means c ds ->
  exists e, ds = match e with Some x => [ODefault x] | None => [] end /\ same_default d e.
Proof.
  intros fk c d ds T [E|[P B]] H M.
  - unfold schema_default in H. rewrite E in H. cbn in H. injection H as <-. exists None.
    destruct M as [_|e P]; [split; [reflexivity|constructor]|]. rewrite E in P. now apply plain_value_some in P.
  - pose proof (plain_value_some _ _ _ P) as NE. destruct M as [C|e P']; [congruence|].
    rewrite (plain_value_det _ _ _ _ P' P). exists (Some (EValue (Some (c_default c)))). split; [reflexivity|].
    unfold schema_default in H. destruct (String.eqb_spec (c_default c) "") as [C|_]; [congruence|].
    unfold new_lq_default in H.
    destruct (is_string_type (c_type c)); [injection H as <-; constructor|].
    destruct (is_boolean_type (c_type c)) eqn:Eb.
    { injection H as <-.
      assert (Tb : c_type c = "boolean").
      { clear - T Eb. cbn in T. repeat (destruct T as [T|T]; [rewrite <- T in *; try reflexivity; cbn in Eb; discriminate|]). destruct T. }
      rewrite (B Tb). exact (sd_bool false). }
    destruct (is_numeric_type (c_type c)).
    { destruct (is_int_type (c_type c)) eqn:Ei.
      - exfalso. clear - T Ei. cbn in T.
        repeat (destruct T as [T|T]; [rewrite <- T in *; cbn in Ei; discriminate|]). destruct T.
      - destruct (fk (c_default c)); [|discriminate]. injection H as <-. constructor. }
    destruct (is_date_type (c_type c)); injection H as <-; constructor.
Qed.

Lemma described_same : forall fk comments c q d, In (c_type c) col_types -> common_default c -> (c_pk c = true -> c_notnull c = true) ->
  described_column c q -> is_col fk comments c d -> same_db_column comments q d.
Proof.
  intros fk comments c q d T C K [cd [M ->]] [I1 [I2 [I3 [I4 [I5 I6]]]]].
  destruct M as [M1 [M2 [ds [us [Md [Mu Mo]]]]]].
  constructor; cbn [q_name q_notnull q_autoinc q_default q_comment]; auto.
  - rewrite I3. destruct (c_notnull c), (c_pk c); auto.
  - destruct (common_same fk c _ ds T C I5 Md) as [e [-> S]].
    assert (E : q_default (column_of cd) = e); [|now rewrite E].
    unfold column_of. rewrite Mo.
    destruct Mu as [_|f _ _ _]; destruct e, (c_notnull c), (c_autoinc c), (String.eqb (c_desc c) ""); reflexivity.
Qed.

(** ** Tables *)
Lemma word_char_plain : forall c, is_word_char c = true -> is_space c = false /\ c <> ","%char.
Proof. intros [[] [] [] [] [] [] [] []]; vm_compute; intros H; split; congruence. Qed.

Lemma plain_word : forall reserved k, plain_ident reserved k -> plain_name k.
Proof.
  intros reserved k [W _]. split.
  - intros C. apply W, word_char_plain in C. now destruct C.
  - apply XlsxText.trim_id. split.
    + intros [c [s [E B]]]. assert (I : char_in c k) by (rewrite E; now left). apply W, word_char_plain in I. destruct I. congruence.
    + intros [s [c [E B]]]. assert (I : char_in c k) by (rewrite E; apply char_in_app; right; now left).
      apply W, word_char_plain in I. destruct I. congruence.
Qed.

Lemma described_tables : forall fk sv comments reserved suffix t b d,
  plain_table reserved suffix t -> (forall c, In c (t_cols t) -> common_default c /\ (c_pk c = true -> c_notnull c = true)) ->
  sv_pre_holds sv = true ->
  described_table suffix t b -> fresh_table fk comments t d -> keeps_unique sv suffix t d -> same_db_table comments b d.
Proof.
  intros fk sv comments reserved suffix t b d P C V [N [F [K [U _]]]] [[N' [_ [_ [K' U']]]] F'] Q.
  assert (UQ : forall k, In k (map c_name (filter c_uq (t_cols t))) <-> uq_of t k).
  { intros k. rewrite in_map_iff. split.
    - intros [c [<- I]]. apply filter_In in I. exists c. tauto.
    - intros [c [I [Hu <-]]]. exists c. split; auto. apply filter_In. auto. }
  assert (KU : forall n ks, In (KUniq n ks) (q_keys b) <-> (exists k, uq_of t k) /\ n = (t_name t ++ suffix)%string /\ ks = map c_name (filter c_uq (t_cols t))).
  { intros n ks. rewrite U, in_app_iff. split.
    - intros [I|I].
      + destruct (map c_name (filter c_uq (t_cols t))) as [|k l] eqn:E; [destruct I|]. destruct I as [I|[]]. injection I as <- <-.
        split; [exists k; apply UQ; now left|auto].
      + apply in_map_iff in I. destruct I as [i [I _]]. discriminate.
    - intros [[k Hk] [-> ->]]. left. apply UQ in Hk. destruct (map c_name (filter c_uq (t_cols t))); [destruct Hk|now left]. }
  constructor.
  - congruence.
  - pose proof (pt_cols _ _ _ P) as [_ PC]. rewrite Forall_forall in PC. clear - F F' C PC. revert F F' C PC.
    generalize (q_cols b), (b_cols d). induction (t_cols t) as [|c cs IH]; intros l l' F F' C PC; inversion F; inversion F'; subst; constructor.
    + destruct (C c (or_introl eq_refl)) as [C1 C2]. eapply described_same; eauto. apply (pc_type reserved), PC. now left.
    + apply IH; auto; intros; [apply C|apply PC]; now right.
  - intros k. rewrite (K' k), (K k). reflexivity.
  - intros n ks I. apply KU in I. destruct I as [E [-> ->]].
    pose proof (proj1 Q V E) as I. apply in_map_iff in I. destruct I as [[n ks'] [En I]]. cbn in En. subst n.
    exists ks'. split; auto. intros k. rewrite UQ. exact (proj1 U' _ I k).
  - intros u I. exists (t_name t ++ suffix)%string, (map c_name (filter c_uq (t_cols t))). split.
    + apply KU. split; auto. apply (proj2 U'). intros E. now rewrite E in I.
    + intros k. rewrite UQ. exact (proj1 U' _ I k).
Qed.

Lemma both_create : forall reserved fk sv o s css,
  proper reserved (lo_suffix o) (selection (lo_filter o) (s_tables s)) ->
  (forall t c, In t (selection (lo_filter o) (s_tables s)) -> In c (t_cols t) -> common_default c /\ (c_pk c = true -> c_notnull c = true)) ->
  sv_pre_holds sv = true -> lq_generate fk o s = Some css ->
  exists stmts bs ds, read_sql reserved (my_export (lo_filter o) (lo_suffix o) s) = Some stmts /\
    run_stmts [] (map MCreate stmts) = Some bs /\ run_log sv css [] = Some ds /\ Forall2 (same_db_table (lo_comments o)) bs ds.
Proof.
  intros reserved fk sv o s css [P [D A]] C V G.
  assert (W : forall t, In t (select (lo_filter o) (s_tables s)) -> well_formed t).
  { intros t I. rewrite Forall_forall in A, P. split; [apply (ac_columns _ _ (A t I))|].
    intros c Hc. split; [|now apply (C t)]. pose proof (pt_cols _ _ _ (P t I)) as [_ PC]. rewrite Forall_forall in PC.
    eapply plain_word. apply (pc_name _ _ (PC c Hc)). }
  destruct (ddl_creates reserved (lo_filter o) (lo_suffix o) s [] P D) as [stmts [bs [R [Q F]]]]; auto.
  destruct (lq_generate_named fk sv o s css G D W) as [ds [R' [F' U]]].
  exists stmts, bs, ds. split; auto. split; auto. split; auto.
  change (select (lo_filter o) (s_tables s)) with (selection (lo_filter o) (s_tables s)) in *.
  rewrite Forall_forall in P. clear - P C V F F' U. revert bs ds F F' U.
  induction (selection (lo_filter o) (s_tables s)) as [|t ts IH]; intros bs ds F F' U; inversion F; inversion F'; subst; [constructor|].
  inversion U; subst. constructor.
  - eapply described_tables; eauto; [apply P; now left|intros c I; apply (C t); [now left|exact I]].
  - apply IH; auto; intros; [apply P|apply (C t0)]; auto; now right.
Qed.
