(** Concrete runs of whole commands *)
From Coq Require Import String Ascii List NArith ZArith Bool Arith.
From Verif.Model Require Import GoString Util Octopus Common Json JsonText Mysql Xlsx Liquibase DiffCore Diff DiffWriters Cli.
From Verif.Spec Require Import Text OctopusSpec JsonSpec DiffSpec MysqlGrammar MysqlSpec FlywaySpec ServerSpec LiquibaseSpec CliSpec OptionsSpec GroupSpec EndSpec.
From Verif.Spec Require XlsxSpec Database.
From Verif.Proofs Require Import ListLemmas StringLemmas OctopusProofs JsonTextProofs MysqlTables FlywayMigration FlywayFacts ServerCases
  ServerProofs MysqlWitnesses LiquibaseWitnesses CliCases CliOptions CliGroups EndToEnd.
From Verif.Proofs Require XlsxRound XlsxWitnesses.
Import ListNotations.
Local Open Scope string_scope.

Lemma picked_all : forall ts, picked (chosen "") ts ts.
Proof. induction ts; constructor; [now left|assumption]. Qed.

(** ** Two versions of a schema *)
Definition ex_sorted (s : schema) : schema := with_tables s (isort_tables (s_tables s)).
Definition ex_text (s : schema) : string := saved_text (to_text isort_tables s).
Definition ex_files (a b : schema) : files := fun n => alist_find [("a.json", ex_text a); ("b.json", ex_text b)] n.
Definition ex_values := option_values [("from", "a.json"); ("to", "b.json"); ("output", "o"); ("uniqueNameSuffix", "_uq"); ("comments", "true")].
Definition ex_from := ex_sorted sx_from.
Definition ex_to := ex_sorted sx_to.

Lemma ex_in : forall s t, In t (s_tables (ex_sorted s)) -> In t (s_tables s).
Proof. intros s t H. exact (Permutation.Permutation_in t (proj1 (isort_sorts (s_tables s))) H). Qed.
Definition ex_from_in := ex_in sx_from.
Definition ex_to_in := ex_in sx_to.

Lemma flyway_case :
  load_file sample_world (ex_files sx_from sx_to) "a.json" = Loaded ex_from /\
  load_file sample_world (ex_files sx_from sx_to) "b.json" = Loaded ex_to /\
  snd (run sample_world (ex_files sx_from sx_to) DiffFlyway ex_values) = Done /\
  picked (chosen (given ex_values "groups")) (s_tables ex_to) (s_tables ex_to) /\
  proper (alter_reserved fx_reserved) "_uq" (s_tables ex_to) /\
  Forall (fun t => plain_ident (alter_reserved fx_reserved) (t_name t)) (s_tables ex_from) /\ NoDup (map t_name (s_tables ex_from)) /\
  (forall t old, In t (s_tables ex_to) -> In old (s_tables ex_from) -> t_name old = t_name t -> alterable old t) /\
  (forall t old, In t (s_tables ex_to) -> In old (s_tables ex_from) -> ~ In (t_name t) (map t_name (s_tables ex_from)) ->
     t_cols t = t_cols old -> (forall k, ~ uq_column t k) /\ t_indices t = t_indices old).
Proof.
  split; [vm_compute; reflexivity|]. split; [vm_compute; reflexivity|]. split; [vm_compute; reflexivity|].
  split; [apply picked_all|].
  split. { apply proper_of; [|vm_compute; reflexivity]. apply Forall_forall. intros t T. apply ex_to_in in T. revert t T. apply Forall_forall. exact sx_to_plain. }
  split. { apply Forall_forall. intros t T. apply ex_from_in in T. pose proof sx_from_plain as P. rewrite Forall_forall in P. exact (pt_name _ _ _ (P t T)). }
  split. { apply distinctb_iff. vm_compute. reflexivity. }
  split. { intros t old T O. apply sx_alterable; [now apply ex_to_in|now apply ex_from_in]. }
  intros t old T O N E. apply ex_to_in in T. apply ex_from_in in O. cbn [sx_to sx_from s_tables In] in T, O.
  destruct T as [<-|[<-|[<-|[<-|[]]]]]; destruct O as [<-|[<-|[<-|[<-|[]]]]]; try discriminate E;
    try (exfalso; apply N; cbn; tauto); (split; [|reflexivity]); intros k C; apply uq_names in C; exact C.
Qed.

(** ** Liquibase *)
Definition ex_log : list lq_cset :=
  match lq_diff (w_float_ok sample_world) (w_ord_tables sample_world) (w_ord_columns sample_world) (mkLqOption None "" "" true)
          (ex_sorted lx_from4) (ex_sorted lx_to4) with Some l => l | None => [] end.

Lemma liquibase_case :
  load_file sample_world (ex_files lx_from4 lx_to4) "a.json" = Loaded (ex_sorted lx_from4) /\
  load_file sample_world (ex_files lx_from4 lx_to4) "b.json" = Loaded (ex_sorted lx_to4) /\
  run sample_world (ex_files lx_from4 lx_to4) DiffLiquibase ex_values = ([("o", w_yaml sample_world ex_log)], Done) /\
  (forall t, In t (s_tables (ex_sorted lx_from4)) \/ In t (s_tables (ex_sorted lx_to4)) -> Database.well_formed t) /\
  (forall t old, In t (s_tables (ex_sorted lx_to4)) -> In old (s_tables (ex_sorted lx_from4)) -> t_name old = t_name t ->
     Database.migratable (w_float_ok sample_world) lx_sv (lq_all ex_log) old t) /\
  Database.is_database (Database.has_table (w_float_ok sample_world) true "") (s_tables (ex_sorted lx_from4))
    (map (lx_b "") (s_tables (ex_sorted lx_from4))) /\
  option_map (map Database.b_name) (Database.run_log lx_sv ex_log (map (lx_b "") (s_tables (ex_sorted lx_from4)))) = Some ["after"; "u"; "fresh"].
Proof.
  split; [vm_compute; reflexivity|]. split; [vm_compute; reflexivity|]. split; [vm_compute; reflexivity|].
  split. { intros t [H|H]; apply ex_in in H; simpl in H; in_cases; wf. }
  split.
  { intros t old Ht Ho E. apply ex_in in Ht. apply ex_in in Ho. simpl in Ht, Ho. in_cases; try discriminate E. constructor.
    - right. exists "mail", (lx_col "mail" true). simpl. auto.
    - intros c o Hc Ho E1 E2. simpl in Hc, Ho. in_cases; try discriminate; reflexivity.
    - intros c o Hc Ho E1 E2. simpl in Hc, Ho. in_cases; try discriminate; reflexivity.
    - intros c o Hc Ho E1 E2. simpl in Hc, Ho. in_cases; try discriminate; reflexivity.
    - right. right. exists "id". split; [exists lx_id; simpl; auto|].
      intros H. vm_compute in H. repeat (destruct H as [H|H]; [discriminate|]). destruct H.
    - right. left. exists lx_id. split; [now left|].
      intros H. vm_compute in H. repeat (destruct H as [H|H]; [discriminate|]). destruct H. }
  split. { apply lx_database. intros t c Ht Hc. apply ex_in in Ht. simpl in Ht. in_cases; simpl in Hc; in_cases; reflexivity. }
  vm_compute. reflexivity.
Qed.

(** ** Workbooks as text *)
Fixpoint put_text (s k : string) : string :=
  match s with EmptyString => String ";" k | String c r => String "'" (String c (put_text r k)) end.
Fixpoint get_text (t : string) : string * string :=
  match t with
  | String "'" (String c r) => let '(a, b) := get_text r in (String c a, b)
  | String _ r => ("", r)
  | EmptyString => ("", "")
  end.
Section Lists.
Context {A : Type} (put : A -> string -> string) (get : string -> A * string).
Fixpoint put_list (l : list A) (k : string) : string :=
  match l with [] => String "." k | x :: l' => String "+" (put x (put_list l' k)) end.
Fixpoint get_list (n : nat) (t : string) : list A * string :=
  match n, t with
  | S n', String "+" r => let '(x, r') := get r in let '(l, r'') := get_list n' r' in (x :: l, r'')
  | _, String _ r => ([], r)
  | _, EmptyString => ([], "")
  end.
Hypothesis back : forall x k, get (put x k) = (x, k).
Hypothesis long : forall x k, String.length k <= String.length (put x k).
Lemma get_put_list : forall l k n, length l <= n -> get_list n (put_list l k) = (l, k).
Proof.
  induction l as [|x l IH]; intros k n H; [destruct n; reflexivity|].
  destruct n as [|n]; [inversion H|]. cbn [put_list get_list]. rewrite back, IH; [reflexivity|]. now apply le_S_n.
Qed.
Lemma put_list_long : forall l k, length l + String.length k <= String.length (put_list l k).
Proof.
  induction l as [|x l IH]; intros k; cbn [put_list length String.length plus]; [auto|].
  apply le_n_S. eapply Nat.le_trans; [apply IH|apply long].
Qed.
End Lists.
Lemma get_put_text : forall s k, get_text (put_text s k) = (s, k).
Proof. induction s as [|c s IH]; intros k; cbn [put_text get_text]; [reflexivity|]. now rewrite IH. Qed.
Lemma put_text_long : forall s k, String.length k <= String.length (put_text s k).
Proof. induction s as [|c s IH]; intros k; cbn [put_text String.length]; auto. Qed.

Definition sized {A} (get : nat -> string -> A * string) (t : string) := get (String.length t) t.
Definition put_row := put_list put_text.
Definition get_row := sized (get_list get_text).
Definition put_rows := put_list put_row.
Definition get_rows := sized (get_list get_row).
Definition put_sheet (sh : string * list (list string)) (k : string) := put_text (fst sh) (put_rows (snd sh) k).
Definition get_sheet (t : string) := let '(n, r) := get_text t in let '(rows, r') := get_rows r in ((n, rows), r').
Definition save_book (wb : list (string * list (list string))) : string := put_list put_sheet wb "".
Definition open_book (t : string) := Some (fst (sized (get_list get_sheet) t)).

Lemma sized_ok : forall {A} (put : A -> string -> string) get, (forall x k, get (put x k) = (x, k)) ->
  (forall x k, String.length k <= String.length (put x k)) ->
  (forall l k, sized (get_list get) (put_list put l k) = (l, k)) /\
  (forall l k, String.length k <= String.length (put_list put l k)).
Proof.
  intros A put get B L. split; intros l k; pose proof (put_list_long put L l k) as H.
  - apply get_put_list; [exact B|]. eapply Nat.le_trans; [|exact H]. apply Nat.le_add_r.
  - eapply Nat.le_trans; [|exact H]. apply Nat.le_add_l.
Qed.
Lemma book_opens : forall wb, open_book (save_book wb) = Some wb.
Proof.
  intros wb. unfold open_book, save_book. do 2 f_equal.
  destruct (sized_ok put_text get_text get_put_text put_text_long) as [B1 L1].
  destruct (sized_ok put_row get_row B1 L1) as [B2 L2].
  assert (B3 : forall x k, get_sheet (put_sheet x k) = (x, k)).
  { intros [n rows] k. unfold get_sheet, put_sheet. cbn [fst snd]. rewrite get_put_text. unfold get_rows. now rewrite B2. }
  assert (L3 : forall x k, String.length k <= String.length (put_sheet x k)).
  { intros [n rows] k. unfold put_sheet. cbn [fst snd]. eapply Nat.le_trans; [apply L2|apply put_text_long]. }
  destruct (sized_ok put_sheet get_sheet B3 L3) as [B4 _]. now rewrite B4.
Qed.

(** ** MySQL: a world whose parser is the grammar *)
Definition sql_world (save : list (string * list (list string)) -> string) (open : string -> option (list (string * list (list string)))) : world :=
  mkWorld (w_camel sample_world) (w_lower_camel sample_world) (w_snake sample_world) (w_plural sample_world) (w_join sample_world)
    isort_tables (w_sort_v1 sample_world) (read_sql mx_reserved) open save
    (fun _ => true) (w_yaml sample_world) (w_float_ok sample_world) (fun l => l) (fun _ l => l) (fun l => l) (fun _ l => l) (fun _ l => l).
Definition end_world : world := sql_world save_book open_book.
Definition ex_export := option_values [("input", "a.json"); ("output", "a.sql"); ("groups", "x,g"); ("uniqueNameSuffix", "_uq")].
Definition ex_import := option_values [("input", "a.sql"); ("output", "b.json"); ("author", "you"); ("excludes", "log,user2")].
Definition ex_sql : string := text_written (run end_world (fun _ => Some (ex_text mx_schema)) ExportMysql ex_export).

Lemma mx_user_survives : Forall (fun t => NoDup (map c_name (t_cols t)) /\ Forall survives (t_cols t)) [mx_user].
Proof.
  pose proof mx_survives as S. change (filter (passes None) (s_tables mx_schema)) with [mx_user; mx_log] in S.
  inversion S; subst. constructor; auto.
Qed.
Lemma mysql_case :
  reads_sql end_world mx_reserved /\
  load_file end_world (fun _ => Some (ex_text mx_schema)) "a.json" = Loaded mx_schema /\ valid_schema mx_schema /\
  picked (chosen (given ex_export "groups")) (s_tables mx_schema) [mx_user] /\
  Forall (plain_table mx_reserved "_uq") [mx_user] /\
  Forall (fun t => NoDup (map c_name (t_cols t)) /\ Forall survives (t_cols t)) [mx_user] /\
  picked (fun t => ~ listed (given ex_import "excludes") (t_name t)) [mx_user] [mx_user] /\
  load_file end_world (fun _ => Some (text_written (run end_world (fun _ => Some ex_sql) ImportMysql ex_import))) "b.json" =
    Loaded (mkSchema "you" "" "" [table_core mx_user]).
Proof.
  split. { intros text stmts H. exact H. }
  split; [vm_compute; reflexivity|]. split. { intros c C. cbn in C. repeat (destruct C as [<-|C]; [vm_compute; intuition (discriminate || auto 20)|]). destruct C. }
  split.
  { constructor; [|constructor; [|constructor]]; rewrite <- chosen_iff; vm_compute; [reflexivity|discriminate]. }
  split. { constructor; [exact mx_user_plain|constructor]. }
  split; [exact mx_user_survives|]. split. { constructor; [|constructor]. rewrite <- listed_iff. vm_compute. discriminate. }
  vm_compute. reflexivity.
Qed.

(** ** Workbooks *)
Lemma end_real : real_world end_world.
Proof.
  split; [exact isort_sorts|]. split; [exact (proj1 (proj2 sample_real))|].
  split; [intros l; reflexivity|]. split; [intros i l; reflexivity|]. split; [intros l; reflexivity|].
  split; intros i l; reflexivity.
Qed.
Lemma end_keeps : keeps_workbooks end_world.
Proof.
  intros wb. exists wb. split; [apply book_opens|]. induction wb as [|sh wb IH]; constructor; [|exact IH].
  split; [reflexivity|]. intros i j; reflexivity.
Qed.
Definition ex_book := option_values [("input", "a.json"); ("output", "a.xlsx"); ("useNullColumn", "true")].
Definition ex_unbook := option_values [("input", "a.xlsx"); ("output", "b.json")].
Definition ex_xlsx : string := text_written (run end_world (fun _ => Some (ex_text XlsxWitnesses.xl_schema)) ExportXlsx ex_book).
Lemma xlsx_case :
  load_file end_world (fun _ => Some (ex_text XlsxWitnesses.xl_schema)) "a.json" = Loaded XlsxWitnesses.xl_schema /\
  valid_schema XlsxWitnesses.xl_schema /\ XlsxSpec.sheets_possible (w_sheet_ok end_world) XlsxWitnesses.xl_schema /\
  Forall XlsxSpec.plain_table (s_tables XlsxWitnesses.xl_schema) /\
  load_file end_world (fun _ => Some (text_written (run end_world (fun _ => Some ex_xlsx) ImportXlsx ex_unbook))) "b.json" =
    Loaded (mkSchema "me" "db" "1" [XlsxSpec.in_group "Common" XlsxWitnesses.xl_group; XlsxWitnesses.xl_user]).
Proof.
  split; [vm_compute; reflexivity|]. split. { intros c C. cbn in C. repeat (destruct C as [<-|C]; [vm_compute; intuition (discriminate || auto 20)|]). destruct C. }
  split; [exact XlsxWitnesses.xl_possible|]. split; [exact XlsxWitnesses.xl_plain|]. vm_compute. reflexivity.
Qed.
