(** Databases made in both ways (C111) *)
From Coq Require Import String Ascii List NArith ZArith Bool.
From Verif.Model Require Import GoString Util Octopus Liquibase Mysql DiffCore Diff DiffWriters.
From Verif.Spec Require Import Text MysqlGrammar MysqlSpec FlywaySpec LiquibaseSpec Database ServerSpec CreatedSpec.
From Verif.Proofs Require Import StringLemmas MysqlLex MysqlFacts MysqlWitnesses FlywayFacts ServerCases Created.
Import ListNotations.
Local Open Scope string_scope.

Definition cx_o := mkLqOption None "" "_uq" true.
Definition cx_sv := mkServer true true true.
Definition cx_col (n ty : string) (size scale : N) (nn pk uq : bool) (dflt upd : string) :=
  mkCol n ty (n ++ " of it") size scale nn pk uq false dflt upd [] None.
Definition cx_cols : list column :=
  [cx_col "a" "int32" 0 0 true true false "" ""; cx_col "b" "int32" 0 0 true true true "7" "";
   cx_col "price" "decimal" 10 2 false false false "1.50" ""; cx_col "code" "char" 4 0 true false true "x y" "";
   cx_col "on_sale" "boolean" 0 0 true false false "0" ""].
Definition cx_table := mkTable "pairs" cx_cols "two" "" "" [].
Definition cx_schema := mkSchema "me" "s" "1" [cx_table].

Lemma cx_int : forall ty v n, ty <> "char" -> ty <> "varchar" -> v <> "" -> string_forallb is_digit v = true -> digits_to_N v = Some n ->
  itoa n = v -> plain_value ty v (EValue (Some v)).
Proof. intros ty v n A B N D E I. rewrite <- I at 2. apply pv_int; auto. now apply mx_digits. Qed.
Lemma cx_seven : plain_value "int32" "7" (EValue (Some "7")).
Proof. apply (cx_int _ _ 7); try discriminate; reflexivity. Qed.
Lemma cx_zero : plain_value "boolean" "0" (EValue (Some "0")).
Proof. apply (cx_int _ _ 0); try discriminate; reflexivity. Qed.
Lemma cx_one : plain_value "boolean" "1" (EValue (Some "1")).
Proof. apply (cx_int _ _ 1); try discriminate; reflexivity. Qed.
Lemma cx_price : plain_value "decimal" "1.50" (EValue (Some "1.50")).
Proof. apply (pv_dec "decimal" "1" "50"); try discriminate; apply mx_digits; try discriminate; reflexivity. Qed.
Lemma cx_text : plain_value "char" "x y" (EValue (Some "x y")).
Proof. apply pv_text; auto; try discriminate. plain_text_tac. Qed.

Ltac cx_column := plain_column_tac;
  [first [exists []; now constructor
         |eexists; eapply dm_some; first [apply cx_seven|apply cx_zero|apply cx_one|apply cx_price|apply cx_text|apply mx_now]]
  |first [exists []; now constructor
         |eexists; eapply (um_some _ "CURRENT_TIMESTAMP"); [reflexivity|vm_compute; tauto|apply all_chars_forallb; reflexivity]]].

Ltac cx_plain := constructor; [plain_ident_tac|no_char|split; [discriminate|]|constructor];
  repeat (apply Forall_cons; [cx_column|]); apply Forall_nil.

Lemma cx_proper : proper sx_reserved "_uq" (s_tables cx_schema).
Proof. apply proper_of; [|reflexivity]. apply Forall_cons; [|apply Forall_nil]. cx_plain. Qed.

Lemma cx_common : forall t c, In t (s_tables cx_schema) -> In c (t_cols t) -> common_default c /\ (c_pk c = true -> c_notnull c = true).
Proof.
  intros t c [<-|[]] I. cbn [cx_table t_cols] in I. unfold cx_cols in I.
  repeat (destruct I as [<-|I]; [split; [first [left; reflexivity|right; split; [first [apply cx_seven|apply cx_zero|apply cx_price|apply cx_text]|cbn [c_type cx_col c_default]; congruence]]|cbn; congruence]|]).
  destruct I.
Qed.

Definition cx_log (s : schema) : list lq_cset :=
  match lq_generate (fun _ => true) cx_o s with Some css => css | None => [] end.

Lemma cx_case : lq_generate (fun _ => true) cx_o cx_schema = Some (cx_log cx_schema) /\
  map (fun b => (q_table b, map q_name (q_cols b), q_pk b, q_keys b)) (sx_server sx_reserved "_uq" cx_schema) =
    [("pairs", ["a"; "b"; "price"; "code"; "on_sale"], ["a"; "b"], [KUniq "pairs_uq" ["b"; "code"]])] /\
  option_map (map (fun d => (b_name d, map d_name (b_cols d), b_pk d, b_uqs d))) (run_log cx_sv (cx_log cx_schema) []) =
    Some [("pairs", ["a"; "b"; "price"; "code"; "on_sale"], ["a"; "b"], [(Some "pairs_uq", ["b"; "code"])])].
Proof. split; [vm_compute; reflexivity|]. split; vm_compute; reflexivity. Qed.

(** ** What the change log does not make *)
Definition made (s : schema) (b : sql_table) (d : dbtable) : Prop :=
  proper sx_reserved "_uq" (s_tables s) /\ sx_server sx_reserved "_uq" s = [b] /\
  lq_generate (fun _ => true) cx_o s = Some (cx_log s) /\ run_log cx_sv (cx_log s) [] = Some [d].

Definition ix_schema := mkSchema "me" "s" "1" [sx_item false true].
Definition first_sql (s : schema) : sql_table :=
  match sx_server sx_reserved "_uq" s with b :: _ => b | [] => mkSqlTable "" [] [] [] end.
Definition first_db (s : schema) : dbtable :=
  match run_log cx_sv (cx_log s) [] with Some (d :: _) => d | _ => mkDbTable "" "" [] [] [] end.

Lemma keys_differ : exists s b d, made s b d /\
  q_keys b = [KUniq "item_uq" ["code"]; KIndex "by_code" ["code"; "id"]] /\
  b_uqs d = [(Some "item_uq", ["code"]); (None, ["code"])].
Proof.
  exists ix_schema, (first_sql ix_schema), (first_db ix_schema). split; [|split; vm_compute; reflexivity].
  split; [|split; [vm_compute; reflexivity|split; vm_compute; reflexivity]].
  apply proper_of; [|reflexivity]. apply Forall_cons; [apply sx_plain_item|apply Forall_nil].
Qed.

Definition dx_table := mkTable "log" [cx_col "id" "int64" 0 0 true true false "" "";
  cx_col "at" "datetime" 0 0 true false false "fn::CURRENT_TIMESTAMP" "fn::CURRENT_TIMESTAMP";
  cx_col "active" "boolean" 0 0 true false false "1" ""] "" "" "" [].
Definition dx_schema := mkSchema "me" "s" "1" [dx_table].

Lemma defaults_differ : exists s b d, made s b d /\
  map (fun q => (q_name q, q_default q, q_onupdate q)) (q_cols b) =
    [("id", None, None); ("at", Some (EFunc "CURRENT_TIMESTAMP"), Some (EFunc "CURRENT_TIMESTAMP")); ("active", Some (EValue (Some "1")), None)] /\
  map (fun c => (d_name c, d_default c)) (b_cols d) =
    [("id", no_default); ("at", mkLqDefault "" None None "fn::CURRENT_TIMESTAMP"); ("active", mkLqDefault "" (Some false) None "")].
Proof.
  exists dx_schema, (first_sql dx_schema), (first_db dx_schema). split; [|split; vm_compute; reflexivity].
  split; [|split; [vm_compute; reflexivity|split; vm_compute; reflexivity]].
  apply proper_of; [|reflexivity]. apply Forall_cons; [|apply Forall_nil]. cx_plain.
Qed.
