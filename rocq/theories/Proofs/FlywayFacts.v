(** Consequences and concrete cases for the Flyway and Markdown writers *)
From Coq Require Import String Ascii List NArith ZArith Bool Lia Sorting.Permutation.
From Verif.Model Require Import GoString Util Octopus DiffCore Diff Mysql DiffWriters.
From Verif.Spec Require Import Text Order DiffSpec MysqlGrammar MysqlSpec FlywaySpec MarkdownSpec.
From Verif.Proofs Require Import StringLemmas MysqlLex MysqlRead MysqlWitnesses FlywayProofs MarkdownProofs.
Import ListNotations.
Local Open Scope string_scope.

Definition sql_text (suffix : string) (ch : change) : string := write_lines (to_sql suffix ch).

Lemma change_reads : forall reserved suffix ch, plain_change reserved suffix ch ->
  exists l, sql_of suffix ch l /\ read_script reserved (sql_text suffix ch) = Some l.
Proof.
  intros reserved suffix ch H. destruct (change_says reserved suffix ch H) as [l [A B]]. exists l.
  split; [exact A|now apply says_script].
Qed.

Lemma autoinc_on : forall reserved suffix t c,
  plain_ident (alter_reserved reserved) (t_name t) -> plain_column (alter_reserved reserved) c -> c_autoinc c = true ->
  exists cd, read_script reserved (sql_text suffix (SetAutoIncrement t c)) = Some [MModify (t_name t) cd] /\
    column_means c cd /\ In OAutoIncrement (cd_options cd).
Proof.
  intros reserved suffix t c Ht Hc Ha. destruct (change_reads reserved suffix (SetAutoIncrement t c) (conj Ht Hc)) as [l [A B]].
  inversion A as [| | | | | |t0 c0 cd E M|t0 c0 ft E|ch S]; subst.
  - exists cd. split; [exact B|]. split; [exact M|]. destruct M as [_ [_ [ds [us [_ [_ ->]]]]]]. rewrite Ha.
    apply in_or_app. right. now left.
  - congruence.
  - destruct S.
Qed.

Lemma autoinc_off : forall reserved suffix t c,
  plain_ident (alter_reserved reserved) (t_name t) -> plain_column (alter_reserved reserved) c -> c_autoinc c = false ->
  exists cd, read_script reserved (sql_text suffix (SetAutoIncrement t c)) = Some [MModify (t_name t) cd] /\
    cd_name cd = c_name c /\ In OAutoIncrement (cd_options cd) /\ In OPrimaryKey (cd_options cd) /\ ~ column_means c cd.
Proof.
  intros reserved suffix t c Ht Hc Ha. destruct (change_reads reserved suffix (SetAutoIncrement t c) (conj Ht Hc)) as [l [A B]].
  inversion A as [| | | | | |t0 c0 cd E M|t0 c0 ft E ES|ch S]; subst.
  - congruence.
  - eexists. split; [exact B|]. split; [reflexivity|]. cbn [cd_options]. split; [now left|]. split; [right; now left|].
    intros [_ [_ [ds [us [D [U X]]]]]]. cbn [cd_options] in X. rewrite Ha in X.
    assert (Y : In OPrimaryKey [OAutoIncrement; OPrimaryKey]) by (right; now left). rewrite X in Y. clear X.
    rewrite !in_app_iff in Y. destruct D, U, (c_notnull c), (String.eqb (c_desc c) ""); cbn [In] in Y; intuition discriminate.
  - destruct S.
Qed.

Lemma not_null_text : forall reserved suffix t c,
  plain_ident (alter_reserved reserved) (t_name t) -> plain_column (alter_reserved reserved) c ->
  exists cd, read_script reserved (sql_text suffix (SetNotNullConstraint t c)) = Some [MModify (t_name t) cd] /\
    cd_name cd = c_name c /\ sql_type c = Some (cd_type cd) /\ cd_options cd = (if c_notnull c then [ONotNull] else []) /\
    (column_means c cd <-> c_autoinc c = false /\ c_default c = "" /\ c_onupdate c = "" /\ c_desc c = "").
Proof.
  intros reserved suffix t c Ht Hc. destruct (change_reads reserved suffix (SetNotNullConstraint t c) (conj Ht Hc)) as [l [A B]].
  inversion A as [| | | | |t0 c0 ft ES| | |ch S]; subst; [|destruct S].
  eexists. split; [exact B|]. split; [reflexivity|]. split; [exact ES|]. split; [reflexivity|]. split.
  - intros [_ [_ [ds [us [D [U X]]]]]]. cbn [cd_options] in X.
    assert (Z : forall n m : nat, (if c_notnull c then 1 else 0) = (if c_notnull c then 1 else 0) + n + m -> n = 0 /\ m = 0) by (intros; destruct (c_notnull c); lia).
    apply (f_equal (@length _)) in X. rewrite !app_length in X.
    destruct D as [D|e D], U as [U|f U1 U2 U3], (c_autoinc c), (String.eqb_spec (c_desc c) "") as [C|C], (c_notnull c);
      cbn [length] in X; try lia; auto.
  - intros [E1 [E2 [E3 E4]]]. split; [reflexivity|]. split; [exact ES|]. exists [], []. split; [now apply dm_none|].
    split; [now apply um_none|]. cbn [cd_options]. rewrite E1, E4. cbn [String.eqb]. now rewrite !app_nil_r.
Qed.

Lemma key_text : forall reserved suffix old nw,
  plain_ident (alter_reserved reserved) (t_name nw) ->
  Forall (fun c => plain_ident (alter_reserved reserved) (c_name c)) (t_cols nw) ->
  exists l, read_script reserved (sql_text suffix (UpdatePrimaryKey old nw)) = Some l /\ In (MDropPrimaryKey (t_name nw)) l /\
    (forall t ks, In (MAddPrimaryKey t ks) l -> t = t_name nw /\ key_columns nw ks) /\
    ((exists ks, In (MAddPrimaryKey (t_name nw) ks) l) <-> exists k, pk_column nw k).
Proof.
  intros reserved suffix old nw Hn HF. destruct (change_reads reserved suffix (UpdatePrimaryKey old nw) (conj Hn HF)) as [l [A B]].
  exists l. split; [exact B|]. inversion A as [| | |o n ks K N|o n K| | | |ch S]; subst; [| |destruct S].
  - split; [now left|]. split.
    + intros t ks' [X|[X|[]]]; [discriminate|]. injection X as <- <-. auto.
    + split; [|intros _; exists ks; right; now left]. intros _. destruct ks as [|k ks]; [congruence|]. exists k. apply K. now left.
  - split; [now left|]. split.
    + intros t ks' [X|[]]. discriminate.
    + split; [intros [ks [X|[]]]; discriminate|]. intros [k Hk]. apply K in Hk. destruct Hk.
Qed.

Lemma silent_iff : forall suffix ch, to_sql suffix ch = [] <-> silent ch.
Proof.
  intros suffix ch. destruct ch; cbn [to_sql silent]; split; intros H; try discriminate H; try reflexivity; try exact I; try contradiction.
  - destruct (c_notnull c); discriminate H.
  - destruct (c_autoinc c); discriminate H.
Qed.

Lemma diff_script : forall reserved ordT ordC o from to css,
  get_diff ordT ordC o from to = Some css ->
  iteration_order ordT -> (forall i, iteration_order (ordC i)) ->
  Forall (plain_table (alter_reserved reserved) (do_suffix o)) (s_tables to) ->
  Forall (fun t => plain_ident (alter_reserved reserved) (t_name t)) (s_tables from) ->
  exists ls, Forall2 (sql_of (do_suffix o)) (all_changes css) ls /\
    read_script reserved (flyway_write (do_suffix o) css) = Some (concat ls).
Proof. intros. apply script_reads. eapply diff_plain; eauto. Qed.

(** ** Concrete cases *)

Definition fx_reserved := mx_reserved.
Definition fx_id (pk auto : bool) := mkCol "id" "int64" "" 0 0 true pk false auto "" "" [] None.
Definition fx_code (ty : string) (nn : bool) := mkCol "code" ty "the code" 20 0 nn false false false "" "" [] None.
Definition fx_old := mkTable "item" [fx_id false false; fx_code "char" false] "" "" "" [].
Definition fx_new := mkTable "item" [fx_id true true; fx_code "char" true] "" "" "" [].
Definition fx_typed := mkTable "item" [fx_id false false; fx_code "varchar" false] "" "" "" [].
Definition fx_gone := mkTable "gone" [fx_id true true] "" "" "" [].
Definition fx_fresh := mkTable "fresh" [fx_id true true; fx_code "char" true; mx_price] "" "" "" [].
Definition fx_schema (ts : list table) := mkSchema "me" "s" "1" ts.
Definition fx_o := mkDiffOption None "me" "_uq" true.
Definition fx_ord {A} (l : list A) : list A := l.
Definition fx_from := fx_schema [fx_old; fx_gone].
Definition fx_to := mkSchema "me" "s" "2" [fx_new; fx_fresh].
Definition fx_css : list cset :=
  match get_diff fx_ord (fun _ => fx_ord) fx_o fx_from fx_to with Some css => css | None => [] end.

Lemma fx_order : forall A, @iteration_order A fx_ord.
Proof. intros A l. apply Permutation_refl. Qed.

Ltac fx_column := plain_column_tac; [exists []; now constructor|exists []; now constructor].

Lemma fx_id_plain : forall a b, plain_column (alter_reserved fx_reserved) (fx_id a b).
Proof. intros a b. fx_column. Qed.
Lemma fx_code_plain : forall b, plain_column (alter_reserved fx_reserved) (fx_code "char" b).
Proof. intros b. fx_column. Qed.
Lemma fx_price_plain : plain_column (alter_reserved fx_reserved) mx_price.
Proof.
  plain_column_tac; [|exists []; now constructor].
  eexists. eapply dm_some, (pv_dec "decimal" "1" "50"); try discriminate; apply mx_digits; try discriminate; reflexivity.
Qed.
Lemma fx_item_name : plain_ident (alter_reserved fx_reserved) "item".
Proof. plain_ident_tac. Qed.

Lemma fx_to_plain : Forall (plain_table (alter_reserved fx_reserved) (do_suffix fx_o)) (s_tables fx_to).
Proof.
  change (s_tables fx_to) with [fx_new; fx_fresh]. apply Forall_cons; [|apply Forall_cons; [|apply Forall_nil]].
  - constructor; [plain_ident_tac|no_char| |constructor]. split; [discriminate|].
    apply Forall_cons; [apply fx_id_plain|]. apply Forall_cons; [apply fx_code_plain|apply Forall_nil].
  - constructor; [plain_ident_tac|no_char| |constructor]. split; [discriminate|].
    apply Forall_cons; [apply fx_id_plain|]. apply Forall_cons; [apply fx_code_plain|].
    apply Forall_cons; [apply fx_price_plain|apply Forall_nil].
Qed.

Lemma fx_from_names : Forall (fun t => plain_ident (alter_reserved fx_reserved) (t_name t)) (s_tables fx_from).
Proof.
  change (s_tables fx_from) with [fx_old; fx_gone]. apply Forall_cons; [plain_ident_tac|].
  apply Forall_cons; [plain_ident_tac|apply Forall_nil].
Qed.

(** a diff with a change, and an empty script *)
Lemma silent_witness : exists from to css ch,
  get_diff fx_ord (fun _ => fx_ord) fx_o from to = Some css /\ In ch (all_changes css) /\
  read_script fx_reserved (flyway_write (do_suffix fx_o) css) = Some [].
Proof.
  exists (fx_schema [fx_old]), (fx_schema [fx_typed]). eexists. exists (ChangeColumnType fx_typed (fx_code "char" false) (fx_code "varchar" false)).
  split; [vm_compute; reflexivity|]. split; [now left|vm_compute; reflexivity].
Qed.

(** a diff whose script drops a primary key the old table does not have *)
Lemma drop_key_witness : exists from to css t,
  get_diff fx_ord (fun _ => fx_ord) fx_o from to = Some css /\
  In t (s_tables from) /\ (forall k, ~ pk_column t k) /\
  exists l, read_script fx_reserved (flyway_write (do_suffix fx_o) css) = Some l /\ In (MDropPrimaryKey (t_name t)) l.
Proof.
  exists (fx_schema [fx_old]), (fx_schema [fx_new]). eexists. exists fx_old.
  split; [vm_compute; reflexivity|]. split; [now left|]. split.
  - intros k [c [H1 [H2 _]]]. vm_compute in H1. destruct H1 as [<-|[<-|[]]]; discriminate.
  - eexists. split; [vm_compute; reflexivity|]. vm_compute. tauto.
Qed.
