(** The DDL on the server, and concrete cases *)
From Coq Require Import String Ascii List NArith ZArith Bool Lia Sorting.Permutation.
From Verif.Model Require Import GoString Util Octopus DiffCore Diff Mysql DiffWriters.
From Verif.Spec Require Import Text Order DiffSpec MysqlGrammar MysqlSpec FlywaySpec MarkdownSpec ServerSpec.
From Verif.Proofs Require Import ListLemmas StringLemmas OctopusProofs UtilProofs DiffCoreProofs DiffFacts MysqlLex MysqlRead MysqlTables
  MysqlWitnesses FlywayFacts ServerProofs FlywayTable FlywayMigration.
Import ListNotations.
Local Open Scope string_scope.
Local Open Scope list_scope.

(** ** C99 *)
Lemma ddl_creates : forall reserved f suffix s d,
  Forall (plain_table reserved suffix) (selection f (s_tables s)) ->
  NoDup (map t_name (selection f (s_tables s))) ->
  (forall t, In t (selection f (s_tables s)) -> ~ In (t_name t) (map q_table d)) ->
  Forall (acceptable suffix) (selection f (s_tables s)) ->
  exists stmts bs, read_sql reserved (my_export f suffix s) = Some stmts /\
    run_stmts d (map MCreate stmts) = Some (d ++ bs) /\
    Forall2 (described_table suffix) (selection f (s_tables s)) bs.
Proof.
  intros reserved f suffix s d P D W A. rewrite <- !selection_select in *.
  destruct (export_reads reserved f suffix s P) as [stmts [R M]]. exists stmts.
  rewrite Forall_forall in A. destruct (created_tables suffix _ stmts d M) as [bs [Q F]]; auto.
  exists bs. auto.
Qed.

Lemma ddl_acceptable : forall reserved f suffix s d stmts d',
  Forall (plain_table reserved suffix) (selection f (s_tables s)) ->
  NoDup (map t_name (selection f (s_tables s))) ->
  (forall t, In t (selection f (s_tables s)) -> ~ In (t_name t) (map q_table d)) ->
  read_sql reserved (my_export f suffix s) = Some stmts ->
  run_stmts d (map MCreate stmts) = Some d' ->
  Forall (acceptable suffix) (selection f (s_tables s)).
Proof.
  intros reserved f suffix s d stmts d' P D W R Q. rewrite <- !selection_select in *.
  destruct (export_reads reserved f suffix s P) as [stmts' [R' M]]. assert (stmts' = stmts) by congruence. subst stmts'.
  eapply created_only; eauto.
Qed.

Lemma ddl_again : forall reserved f suffix s d stmts,
  Forall (plain_table reserved suffix) (selection f (s_tables s)) ->
  (forall t, In t (selection f (s_tables s)) -> In (t_name t) (map q_table d)) ->
  read_sql reserved (my_export f suffix s) = Some stmts ->
  run_stmts d (map MCreate stmts) = Some d.
Proof.
  intros reserved f suffix s d stmts P W R. rewrite <- !selection_select in *.
  destruct (export_reads reserved f suffix s P) as [stmts' [R' M]]. assert (stmts' = stmts) by congruence. subst stmts'.
  eapply present_tables; eauto.
Qed.

(** ** Tables the server accepts *)
Definition accept (suffix : string) (t : table) : bool :=
  let names := map c_name (t_cols t) in
  negb (Nat.eqb (length names) 0) && distinctb names &&
  forallb (fun i => forallb (fun k => str_in k names) (ix_cols i)) (t_indices t) &&
  distinctb (map ix_name (t_indices t)) &&
  negb (str_in (append (t_name t) suffix) (map ix_name (t_indices t))) &&
  Nat.leb (length (filter c_autoinc (t_cols t))) 1 &&
  forallb (fun c => negb (c_autoinc c) || existsb (leads (c_name c)) (map c_name (filter c_pk (t_cols t)) :: other_keys t)) (t_cols t).

Lemma accept_ok : forall suffix t, accept suffix t = true -> acceptable suffix t.
Proof.
  intros suffix t H. unfold accept in H. rewrite !andb_true_iff, !distinctb_iff, !forallb_forall, !negb_true_iff in H.
  destruct H as [[[[[[A B] C] D] E] F] G]. constructor.
  - split; auto. intros X. now rewrite X in A.
  - intros i k I J. specialize (C i I). rewrite forallb_forall in C. apply str_in_iff. now apply C.
  - split; auto. intros _ X. apply str_in_false in E. tauto.
  - intros c c' I I' A1 A2. apply PeanoNat.Nat.leb_le in F.
    assert (X : In c (filter c_autoinc (t_cols t))) by now apply filter_In.
    assert (X' : In c' (filter c_autoinc (t_cols t))) by now apply filter_In.
    destruct (filter c_autoinc (t_cols t)) as [|x [|y r]]; [destruct X| |cbn in F; lia].
    destruct X as [<-|[]], X' as [<-|[]]. reflexivity.
  - intros c I A1. specialize (G c I). rewrite A1 in G. cbn [negb orb] in G. apply existsb_exists in G.
    destruct G as [l [L1 L2]]. apply leads_iff in L2. destruct L2 as [r ->]. exists r. exact L1.
Qed.

(** ** The database a script works on *)
Definition sx_server (reserved : string -> bool) (suffix : string) (s : schema) : sql_server :=
  match read_sql reserved (my_export None suffix s) with
  | Some stmts => match run_stmts [] (map MCreate stmts) with Some d => d | None => [] end
  | None => []
  end.

Lemma sx_described : forall reserved suffix s,
  Forall (plain_table reserved suffix) (s_tables s) -> distinctb (map t_name (s_tables s)) = true ->
  forallb (accept suffix) (s_tables s) = true -> described suffix (s_tables s) (sx_server reserved suffix s).
Proof.
  intros reserved suffix s P D A. apply distinctb_iff in D. rewrite forallb_forall in A.
  destruct (ddl_creates reserved None suffix s [] P D) as [stmts [bs [R [Q F]]]]; auto.
  { apply Forall_forall. intros t T. now apply accept_ok, A. }
  unfold sx_server. rewrite R, Q. exists bs. split; auto.
Qed.

Definition sx_reserved := alter_reserved fx_reserved.
Definition sx_col (n ty d : string) (nn pk uq ai : bool) (dflt : string) := mkCol n ty d 0 0 nn pk uq ai dflt "" [] None.
Definition sx_id (ai : bool) := sx_col "id" "int64" "" true true false ai "".
Definition sx_code (nn : bool) := sx_col "code" "int32" "" nn false true false "".
Definition sx_note := sx_col "note" "text16" "a note" false false false false "".
Definition sx_a (pk : bool) := sx_col "a" "int32" "" true pk false false "".
Definition sx_b (pk : bool) := sx_col "b" "int32" "" true pk false false "7".
Definition sx_index := mkIdx "by_code" ["code"; "id"].
Definition sx_item (ai nn : bool) := mkTable "item" [sx_id ai; sx_code nn; sx_note] "" "" "" [sx_index].
Definition sx_pair (both : bool) := mkTable "pair" [sx_a true; sx_b both] "" "" "" [].
Definition sx_named (n : string) := mkTable n [sx_id true; sx_note] "" "" "" [].
Definition sx_gone := mkTable "gone" [sx_note] "" "" "" [].
Definition sx_fresh := mkTable "fresh" [sx_id true; sx_code true] "" "" "" [].
Definition sx_from := mkSchema "me" "s" "1" [sx_item false false; sx_gone; sx_pair false; sx_named "before"].
Definition sx_to := mkSchema "me" "s" "2" [sx_fresh; sx_item true true; sx_named "after"; sx_pair true].
Definition sx_css : list cset :=
  match get_diff fx_ord (fun _ => fx_ord) fx_o sx_from sx_to with Some css => css | None => [] end.

Ltac sx_column := plain_column_tac; [exists []; now constructor|exists []; now constructor].

Lemma sx_plain_id : forall a, plain_column sx_reserved (sx_id a). Proof. intros a. sx_column. Qed.
Lemma sx_plain_code : forall a, plain_column sx_reserved (sx_code a). Proof. intros a. sx_column. Qed.
Lemma sx_plain_note : plain_column sx_reserved sx_note. Proof. sx_column. Qed.
Lemma sx_plain_a : forall a, plain_column sx_reserved (sx_a a). Proof. intros a. sx_column. Qed.
Lemma sx_plain_b : forall a, plain_column sx_reserved (sx_b a).
Proof.
  intros a. plain_column_tac; [|exists []; now constructor].
  eexists. eapply dm_some, (pv_int "int32" "7"); try discriminate; try (apply mx_digits; [discriminate|reflexivity]); cbn; tauto.
Qed.

Ltac sx_table :=
  constructor; [plain_ident_tac|no_char|split; [discriminate|]|repeat constructor; try discriminate; no_char];
  repeat (apply Forall_cons; [first [apply sx_plain_id|apply sx_plain_code|apply sx_plain_note|apply sx_plain_a|apply sx_plain_b]|]);
  apply Forall_nil.

Lemma sx_plain_item : forall a b, plain_table sx_reserved "_uq" (sx_item a b). Proof. intros a b. sx_table. Qed.
Lemma sx_plain_pair : forall a, plain_table sx_reserved "_uq" (sx_pair a). Proof. intros a. sx_table. Qed.
Lemma sx_plain_before : plain_table sx_reserved "_uq" (sx_named "before"). Proof. sx_table. Qed.
Lemma sx_plain_after : plain_table sx_reserved "_uq" (sx_named "after"). Proof. sx_table. Qed.
Lemma sx_plain_gone : plain_table sx_reserved "_uq" sx_gone. Proof. sx_table. Qed.
Lemma sx_plain_fresh : plain_table sx_reserved "_uq" sx_fresh. Proof. sx_table. Qed.

Lemma sx_from_plain : Forall (plain_table sx_reserved "_uq") (s_tables sx_from).
Proof.
  repeat (apply Forall_cons; [first [apply sx_plain_item|apply sx_plain_pair|apply sx_plain_before|apply sx_plain_gone]|]).
  apply Forall_nil.
Qed.
Lemma sx_to_plain : Forall (plain_table sx_reserved "_uq") (s_tables sx_to).
Proof.
  repeat (apply Forall_cons; [first [apply sx_plain_item|apply sx_plain_pair|apply sx_plain_after|apply sx_plain_fresh]|]).
  apply Forall_nil.
Qed.

Lemma proper_of : forall reserved suffix ts, Forall (plain_table reserved suffix) ts ->
  distinctb (map t_name ts) && forallb (accept suffix) ts = true -> proper reserved suffix ts.
Proof.
  intros reserved suffix ts P H. apply andb_true_iff in H. destruct H as [D A]. apply distinctb_iff in D.
  rewrite forallb_forall in A. split; auto. split; auto. apply Forall_forall. intros t T. now apply accept_ok, A.
Qed.

Lemma sx_from_proper : proper sx_reserved "_uq" (s_tables sx_from).
Proof. apply proper_of; [exact sx_from_plain|reflexivity]. Qed.
Lemma sx_to_proper : proper sx_reserved "_uq" (s_tables sx_to).
Proof. apply proper_of; [exact sx_to_plain|reflexivity]. Qed.

Lemma proper_described : forall reserved suffix s, proper reserved suffix (s_tables s) ->
  described suffix (s_tables s) (sx_server reserved suffix s).
Proof.
  intros reserved suffix s [P [D A]].
  destruct (ddl_creates reserved None suffix s [] P D) as [stmts [bs [R [Q F]]]]; auto.
  unfold sx_server. rewrite R, Q. exists bs. split; auto.
Qed.

Lemma sx_alterable : forall t old, In t (s_tables sx_to) -> In old (s_tables sx_from) -> t_name old = t_name t -> alterable old t.
Proof.
  intros t old T O E.
  assert (X : (t = sx_item true true /\ old = sx_item false false) \/ (t = sx_pair true /\ old = sx_pair false)).
  { cbn [sx_to sx_from s_tables In] in T, O.
    destruct T as [<-|[<-|[<-|[<-|[]]]]]; destruct O as [<-|[<-|[<-|[<-|[]]]]]; try discriminate E; auto. }
  clear T O E. destruct X as [[-> ->]|[-> ->]].
  - constructor.
    + repeat apply Forall2_cons; [| | |apply Forall2_nil]; constructor; try (cbn; intuition discriminate); try discriminate.
    + reflexivity.
    + left. intros k. rewrite <- !pk_names. reflexivity.
    + intros o c O C En A. right. cbn [sx_item t_cols In] in C. destruct C as [<-|[<-|[<-|[]]]]; try discriminate A.
      split; [intros k; rewrite <- !pk_names; reflexivity|]. right. intros k. rewrite <- pk_names. cbn. split; [intros [<-|[]]; auto|auto].
  - constructor.
    + repeat apply Forall2_cons; [| |apply Forall2_nil]; constructor; try (cbn; intuition discriminate); try discriminate.
    + reflexivity.
    + right. exists "a". apply pk_names. now left.
    + intros o c O C En A. cbn [sx_pair t_cols In] in C. destruct C as [<-|[<-|[]]]; discriminate A.
Qed.

Lemma sx_renamed : forall nw old, In (RenameTable old nw) (all_changes sx_css) ->
  (forall k, ~ uq_column nw k) /\ t_indices nw = t_indices old.
Proof.
  intros nw old H. vm_compute in H. repeat (destruct H as [H|H]; [try discriminate H|]); [|destruct H].
  injection H as <- <-. split; [|reflexivity]. intros k C. apply uq_names in C. exact C.
Qed.

(** ** What scripts do not achieve *)
Lemma Forall2_length : forall {A B} (R : A -> B -> Prop) l l', Forall2 R l l' -> length l = length l'.
Proof. intros A B R l l' F. induction F; cbn; congruence. Qed.

Lemma described_one : forall suffix t s, described suffix [t] s -> exists b, s = [b] /\ described_table suffix t b.
Proof.
  intros suffix t s [bs [P F]]. inversion F as [|? b ? ? B X]; subst. inversion X; subst.
  apply Permutation_sym, Permutation_length_1_inv in P. eauto.
Qed.

Definition sx_schema (ts : list table) := mkSchema "me" "s" "1" ts.
Definition sx_diff (from to : list table) : list cset :=
  match get_diff fx_ord (fun _ => fx_ord) fx_o (sx_schema from) (sx_schema to) with Some css => css | None => [] end.
Definition sx_script (from to : list table) : list mig_stmt :=
  match read_script fx_reserved (flyway_write "_uq" (sx_diff from to)) with Some ms => ms | None => [] end.

Lemma stops : forall from to, proper sx_reserved "_uq" from ->
  run_stmts (sx_server sx_reserved "_uq" (sx_schema from)) (sx_script from to) = None ->
  ~ migrates fx_reserved "_uq" (flyway_write "_uq" (sx_diff from to)) from to.
Proof.
  intros from to P H M. destruct (M _ (proper_described _ _ (sx_schema from) P)) as [ms [s' [R [Q _]]]].
  unfold sx_script in H. rewrite R in H. congruence.
Qed.

Lemma differs : forall from t b, proper sx_reserved "_uq" from ->
  run_stmts (sx_server sx_reserved "_uq" (sx_schema from)) (sx_script from [t]) = Some [b] ->
  ~ described_table "_uq" t b ->
  ~ migrates fx_reserved "_uq" (flyway_write "_uq" (sx_diff from [t])) from [t].
Proof.
  intros from t b P H N M. destruct (M _ (proper_described _ _ (sx_schema from) P)) as [ms [s' [R [Q D]]]].
  unfold sx_script in H. rewrite R, Q in H. apply (f_equal (fun x => match x with Some y => y | None => [] end)) in H. subst s'.
  apply described_one in D. destruct D as [b' [E D]]. assert (b' = b) by congruence. subst. auto.
Qed.

Definition sx_indexed (l : list index) := mkTable "pair" [sx_a true; sx_b false] "" "" "" l.
Definition sx_coded (n : string) := mkTable n [sx_code true] "" "" "" [].
Definition sx_keyed (pk ai : bool) := mkTable "pair" [sx_col "a" "int32" "" true pk false ai ""; sx_b false] "" "" "" [].
Definition sx_noted (nn : bool) := mkTable "pair" [sx_a true; sx_col "note" "text16" "a note" nn false false false ""] "" "" "" [].
Definition sx_typed (ty : string) := mkTable "pair" [sx_a true; sx_col "b" ty "" true false false false ""] "" "" "" [].
Definition sx_longer := mkTable "pair" [sx_a true; sx_b false; sx_note] "" "" "" [].
Definition sx_shorter := mkTable "pair" [sx_a true] "" "" "" [].

Lemma sx_keyed_plain : forall a b, plain_table sx_reserved "_uq" (sx_keyed a b).
Proof.
  intros a b. constructor; [plain_ident_tac|no_char|split; [discriminate|]|constructor].
  apply Forall_cons; [sx_column|]. apply Forall_cons; [apply sx_plain_b|apply Forall_nil].
Qed.
Lemma sx_indexed_plain : plain_table sx_reserved "_uq" (sx_indexed []). Proof. sx_table. Qed.
Lemma sx_indexed_plain' : plain_table sx_reserved "_uq" (sx_indexed [mkIdx "i" ["b"]]). Proof. sx_table. Qed.
Lemma sx_coded_plain : plain_table sx_reserved "_uq" (sx_coded "before"). Proof. sx_table. Qed.
Lemma sx_coded_plain' : plain_table sx_reserved "_uq" (sx_coded "after"). Proof. sx_table. Qed.
Lemma sx_noted_plain : forall a, plain_table sx_reserved "_uq" (sx_noted a).
Proof.
  intros a. constructor; [plain_ident_tac|no_char|split; [discriminate|]|constructor].
  apply Forall_cons; [apply sx_plain_a|]. apply Forall_cons; [sx_column|apply Forall_nil].
Qed.
Lemma sx_typed_plain : plain_table sx_reserved "_uq" (sx_typed "int32").
Proof.
  constructor; [plain_ident_tac|no_char|split; [discriminate|]|constructor].
  apply Forall_cons; [apply sx_plain_a|]. apply Forall_cons; [sx_column|apply Forall_nil].
Qed.
Lemma sx_typed_plain' : plain_table sx_reserved "_uq" (sx_typed "int64").
Proof.
  constructor; [plain_ident_tac|no_char|split; [discriminate|]|constructor].
  apply Forall_cons; [apply sx_plain_a|]. apply Forall_cons; [sx_column|apply Forall_nil].
Qed.

Lemma one_proper : forall t, plain_table sx_reserved "_uq" t -> accept "_uq" t = true -> proper sx_reserved "_uq" [t].
Proof. intros t P A. apply proper_of; [now constructor|]. cbn. now rewrite A. Qed.

(** a primary key for a table without one: the script drops a key that is not there *)
Lemma no_key_stops : exists from to css, proper sx_reserved "_uq" (s_tables from) /\ proper sx_reserved "_uq" (s_tables to) /\
  get_diff fx_ord (fun _ => fx_ord) fx_o from to = Some css /\ map kind_of (all_changes css) = [KPk] /\
  ~ migrates fx_reserved "_uq" (flyway_write "_uq" css) (s_tables from) (s_tables to).
Proof.
  exists (sx_schema [sx_keyed false false]), (sx_schema [sx_keyed true false]), (sx_diff [sx_keyed false false] [sx_keyed true false]).
  split; [apply one_proper; [apply sx_keyed_plain|reflexivity]|]. split; [apply one_proper; [apply sx_keyed_plain|reflexivity]|].
  split; [vm_compute; reflexivity|]. split; [vm_compute; reflexivity|].
  apply stops; [apply one_proper; [apply sx_keyed_plain|reflexivity]|vm_compute; reflexivity].
Qed.

(** the key of an auto-increment column is extended: the script drops the key first *)
Definition sx_wide (both : bool) := mkTable "pair" [sx_id true; sx_b both] "" "" "" [].
Lemma sx_wide_plain : forall a, plain_table sx_reserved "_uq" (sx_wide a). Proof. intros a. sx_table. Qed.
Lemma key_stops : exists from to css, proper sx_reserved "_uq" (s_tables from) /\ proper sx_reserved "_uq" (s_tables to) /\
  get_diff fx_ord (fun _ => fx_ord) fx_o from to = Some css /\ map kind_of (all_changes css) = [KPk] /\
  (forall t, In t (s_tables from) -> exists k, pk_column t k) /\
  ~ migrates fx_reserved "_uq" (flyway_write "_uq" css) (s_tables from) (s_tables to).
Proof.
  exists (sx_schema [sx_wide false]), (sx_schema [sx_wide true]), (sx_diff [sx_wide false] [sx_wide true]).
  split; [apply one_proper; [apply sx_wide_plain|reflexivity]|]. split; [apply one_proper; [apply sx_wide_plain|reflexivity]|].
  split; [vm_compute; reflexivity|]. split; [vm_compute; reflexivity|].
  split; [intros t [<-|[]]; exists "id"; apply pk_names; now left|].
  apply stops; [apply one_proper; [apply sx_wide_plain|reflexivity]|vm_compute; reflexivity].
Qed.

(** an index is added: there is no change *)
Lemma index_differs : exists from to css, proper sx_reserved "_uq" (s_tables from) /\ proper sx_reserved "_uq" (s_tables to) /\
  get_diff fx_ord (fun _ => fx_ord) fx_o from to = Some css /\ all_changes css = [] /\
  ~ migrates fx_reserved "_uq" (flyway_write "_uq" css) (s_tables from) (s_tables to).
Proof.
  exists (sx_schema [sx_indexed []]), (sx_schema [sx_indexed [mkIdx "i" ["b"]]]), (sx_diff [sx_indexed []] [sx_indexed [mkIdx "i" ["b"]]]).
  split; [apply one_proper; [apply sx_indexed_plain|reflexivity]|]. split; [apply one_proper; [apply sx_indexed_plain'|reflexivity]|].
  split; [vm_compute; reflexivity|]. split; [vm_compute; reflexivity|].
  eapply differs; [apply one_proper; [apply sx_indexed_plain|reflexivity]|vm_compute; reflexivity|].
  intros [_ [_ [_ [K _]]]]. vm_compute in K. discriminate K.
Qed.

(** a table with a unique key is renamed: its key keeps the old name *)
Lemma rename_differs : exists from to css, proper sx_reserved "_uq" (s_tables from) /\ proper sx_reserved "_uq" (s_tables to) /\
  get_diff fx_ord (fun _ => fx_ord) fx_o from to = Some css /\ In KRename (map kind_of (all_changes css)) /\
  ~ migrates fx_reserved "_uq" (flyway_write "_uq" css) (s_tables from) (s_tables to).
Proof.
  exists (sx_schema [sx_coded "before"]), (sx_schema [sx_coded "after"]), (sx_diff [sx_coded "before"] [sx_coded "after"]).
  split; [apply one_proper; [apply sx_coded_plain|reflexivity]|]. split; [apply one_proper; [apply sx_coded_plain'|reflexivity]|].
  split; [vm_compute; reflexivity|]. split; [vm_compute; tauto|].
  eapply differs; [apply one_proper; [apply sx_coded_plain|reflexivity]|vm_compute; reflexivity|].
  intros [_ [_ [_ [K _]]]]. vm_compute in K. discriminate K.
Qed.

(** a column becomes NOT NULL: it loses its comment *)
Lemma comment_differs : exists from to css, proper sx_reserved "_uq" (s_tables from) /\ proper sx_reserved "_uq" (s_tables to) /\
  get_diff fx_ord (fun _ => fx_ord) fx_o from to = Some css /\ map kind_of (all_changes css) = [KNotNull] /\
  ~ migrates fx_reserved "_uq" (flyway_write "_uq" css) (s_tables from) (s_tables to).
Proof.
  exists (sx_schema [sx_noted false]), (sx_schema [sx_noted true]), (sx_diff [sx_noted false] [sx_noted true]).
  split; [apply one_proper; [apply sx_noted_plain|reflexivity]|]. split; [apply one_proper; [apply sx_noted_plain|reflexivity]|].
  split; [vm_compute; reflexivity|]. split; [vm_compute; reflexivity|].
  eapply differs; [apply one_proper; [apply sx_noted_plain|reflexivity]|vm_compute; reflexivity|].
  intros [_ [K _]]. cbn [q_cols] in K. inversion K as [|? ? ? ? _ K1]; subst. inversion K1 as [|? ? ? ? K2 _]; subst.
  destruct K2 as [cd [_ K2]]. apply (f_equal q_comment) in K2. discriminate K2.
Qed.

(** a column has another type: the script is silent *)
Lemma type_differs : exists from to css, proper sx_reserved "_uq" (s_tables from) /\ proper sx_reserved "_uq" (s_tables to) /\
  get_diff fx_ord (fun _ => fx_ord) fx_o from to = Some css /\ map kind_of (all_changes css) = [KType] /\
  ~ migrates fx_reserved "_uq" (flyway_write "_uq" css) (s_tables from) (s_tables to).
Proof.
  exists (sx_schema [sx_typed "int32"]), (sx_schema [sx_typed "int64"]), (sx_diff [sx_typed "int32"] [sx_typed "int64"]).
  split; [apply one_proper; [apply sx_typed_plain|reflexivity]|]. split; [apply one_proper; [apply sx_typed_plain'|reflexivity]|].
  split; [vm_compute; reflexivity|]. split; [vm_compute; reflexivity|].
  eapply differs; [apply one_proper; [apply sx_typed_plain|reflexivity]|vm_compute; reflexivity|].
  intros [_ [K _]]. cbn [q_cols] in K. inversion K as [|? ? ? ? _ K1]; subst. inversion K1 as [|? ? ? ? K2 _]; subst.
  destruct K2 as [cd [M K2]]. apply (f_equal q_type) in K2. cbn [q_type] in K2.
  destruct M as [_ [M _]]. rewrite <- K2 in M. discriminate M.
Qed.

(** columns are added or dropped: the script says nothing about them *)
Lemma sx_longer_plain : plain_table sx_reserved "_uq" sx_longer. Proof. sx_table. Qed.
Lemma sx_shorter_plain : plain_table sx_reserved "_uq" sx_shorter. Proof. sx_table. Qed.

Lemma added_differs : exists from to css, proper sx_reserved "_uq" (s_tables from) /\ proper sx_reserved "_uq" (s_tables to) /\
  get_diff fx_ord (fun _ => fx_ord) fx_o from to = Some css /\
  map (fun t => length (t_cols t)) (s_tables from) = [1] /\ map (fun t => length (t_cols t)) (s_tables to) = [3] /\
  ~ migrates fx_reserved "_uq" (flyway_write "_uq" css) (s_tables from) (s_tables to).
Proof.
  exists (sx_schema [sx_shorter]), (sx_schema [sx_longer]), (sx_diff [sx_shorter] [sx_longer]).
  split; [apply one_proper; [apply sx_shorter_plain|reflexivity]|]. split; [apply one_proper; [apply sx_longer_plain|reflexivity]|].
  split; [vm_compute; reflexivity|]. split; [reflexivity|]. split; [reflexivity|].
  eapply differs; [apply one_proper; [apply sx_shorter_plain|reflexivity]|vm_compute; reflexivity|].
  intros [_ [K _]]. apply Forall2_length in K. discriminate K.
Qed.

Lemma dropped_differs : exists from to css, proper sx_reserved "_uq" (s_tables from) /\ proper sx_reserved "_uq" (s_tables to) /\
  get_diff fx_ord (fun _ => fx_ord) fx_o from to = Some css /\
  map (fun t => length (t_cols t)) (s_tables from) = [3] /\ map (fun t => length (t_cols t)) (s_tables to) = [1] /\
  ~ migrates fx_reserved "_uq" (flyway_write "_uq" css) (s_tables from) (s_tables to).
Proof.
  exists (sx_schema [sx_longer]), (sx_schema [sx_shorter]), (sx_diff [sx_longer] [sx_shorter]).
  split; [apply one_proper; [apply sx_longer_plain|reflexivity]|]. split; [apply one_proper; [apply sx_shorter_plain|reflexivity]|].
  split; [vm_compute; reflexivity|]. split; [reflexivity|]. split; [reflexivity|].
  eapply differs; [apply one_proper; [apply sx_longer_plain|reflexivity]|vm_compute; reflexivity|].
  intros [_ [K _]]. apply Forall2_length in K. discriminate K.
Qed.

(** DDL that the server refuses: an auto-increment column without a key, and an index on a column the table does not have *)
Lemma ddl_stops : exists s1 s2, 
  (forall s, s = s1 \/ s = s2 -> Forall (plain_table sx_reserved "_uq") (s_tables s) /\ NoDup (map t_name (s_tables s)) /\
     ~ creates sx_reserved "_uq" (my_export None "_uq" s) (s_tables s)) /\
  (exists t c, In t (s_tables s1) /\ In c (t_cols t) /\ c_autoinc c = true /\ c_pk c = false /\ c_uq c = false) /\
  (exists t i, In t (s_tables s2) /\ In i (t_indices t) /\ ix_cols i = ["b"; "z"] /\ map c_name (t_cols t) = ["a"; "b"]).
Proof.
  exists (sx_schema [sx_keyed false true]), (sx_schema [sx_indexed [mkIdx "i" ["b"; "z"]]]).
  assert (G : forall t, plain_table sx_reserved "_uq" t ->
    (match read_sql sx_reserved (my_export None "_uq" (sx_schema [t])) with
     | Some stmts => run_stmts [] (map MCreate stmts) | None => None end) = None ->
    Forall (plain_table sx_reserved "_uq") [t] /\ NoDup (map t_name [t]) /\
    ~ creates sx_reserved "_uq" (my_export None "_uq" (sx_schema [t])) [t]).
  { intros t P N. split; [now constructor|]. split; [constructor; [intros []|constructor]|].
    intros [stmts [d [R [Q _]]]]. rewrite R in N. congruence. }
  split; [|split].
  - intros s [->| ->]; apply G.
    + apply sx_keyed_plain.
    + vm_compute; reflexivity.
    + sx_table.
    + vm_compute; reflexivity.
  - exists (sx_keyed false true). eexists. split; [now left|]. split; [now left|]. auto.
  - eexists. eexists. split; [now left|]. split; [now left|]. auto.
Qed.

(** two tables of the same name: the second is silently left out *)
Lemma ddl_skips : exists s stmts d, Forall (plain_table sx_reserved "_uq") (s_tables s) /\ Forall (acceptable "_uq") (s_tables s) /\
  read_sql sx_reserved (my_export None "_uq" s) = Some stmts /\ run_stmts [] (map MCreate stmts) = Some d /\
  length (s_tables s) = 2 /\ length d = 1 /\ ~ described "_uq" (s_tables s) d.
Proof.
  exists (sx_schema [sx_pair true; sx_shorter]).
  eexists. eexists.
  split; [apply Forall_cons; [apply sx_plain_pair|apply Forall_cons; [apply sx_shorter_plain|apply Forall_nil]]|].
  split; [repeat (apply Forall_cons; [apply accept_ok; reflexivity|]); apply Forall_nil|].
  split; [vm_compute; reflexivity|]. split; [vm_compute; reflexivity|]. split; [reflexivity|]. split; [reflexivity|].
  intros [bs [P F]]. apply Permutation_length in P. apply Forall2_length in F. rewrite <- P in F. discriminate F.
Qed.

(** ** C100 *)
Lemma script_migrates : forall reserved ordT ordC o from to css,
  get_diff ordT ordC o from to = Some css ->
  iteration_order ordT -> (forall i, iteration_order (ordC i)) ->
  proper (alter_reserved reserved) (do_suffix o) (s_tables to) ->
  Forall (fun t => plain_ident (alter_reserved reserved) (t_name t)) (s_tables from) ->
  NoDup (map t_name (s_tables from)) ->
  (forall t old, In t (s_tables to) -> selected (do_filter o) t -> In old (s_tables from) -> t_name old = t_name t ->
     alterable old t) ->
  (forall nw old, In (RenameTable old nw) (all_changes css) ->
     (forall k, ~ uq_column nw k) /\ t_indices nw = t_indices old) ->
  migrates reserved (do_suffix o) (flyway_write (do_suffix o) css) (s_tables from) (selection (do_filter o) (s_tables to)).
Proof. intros reserved ordT ordC o from to css H HT HC [P [D A]] N Df Al Rn s S. eapply flyway_migrates; eauto. Qed.
