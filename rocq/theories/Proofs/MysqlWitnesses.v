(** Concrete tables for the MySQL theorems *)
From Coq Require Import String Ascii List NArith ZArith Bool.
From Verif.Model Require Import GoString Util Octopus Mysql.
From Verif.Spec Require Import Text MysqlGrammar MysqlSpec MysqlImportSpec.
From Verif.Proofs Require Import StringLemmas MysqlLex.
Import ListNotations.
Local Open Scope string_scope.

Definition mx_reserved (w : string) : bool := str_in w ["select"; "from"; "where"; "group"; "order"].

Definition mx_id := mkCol "id" "int64" "" 0 0 true true false true "" "" [] None.
Definition mx_name := mkCol "name" "varchar" "login name" 40 0 true false true false "it, is; (x)" "" [] None.
Definition mx_price := mkCol "price" "decimal" "" 10 2 false false false false "1.50" "" [] None.
Definition mx_kind := mkCol "kind" "enum" "a or b" 0 0 false false true false "" "" ["a"; "b"] None.
Definition mx_at := mkCol "created_at" "datetime" "" 0 0 true false false false
  "fn::CURRENT_TIMESTAMP" "fn::CURRENT_TIMESTAMP" [] None.
Definition mx_user := mkTable "user" [mx_id; mx_name; mx_price; mx_kind; mx_at] "users" "g" "User"
  [mkIdx "by_price" ["price"; "kind"]].
Definition mx_log := mkTable "log" [mkCol "msg" "text16" "" 0 0 false false false false "" "" [] None] "" "h" "" [].
Definition mx_schema := mkSchema "me" "shop" "1" [mx_user; mx_log].

Ltac plain_ident_tac := split; [apply all_chars_forallb; reflexivity|reflexivity].
Ltac no_char := intros X; vm_compute in X; intuition discriminate.
Ltac plain_text_tac := split; no_char.
Ltac plain_column_tac :=
  constructor;
  [plain_ident_tac|vm_compute; tauto|repeat constructor; no_char|discriminate| | |plain_text_tac].

Lemma mx_digits : forall s, s <> "" -> string_forallb is_digit s = true -> digits s.
Proof. intros s H1 H2. split; auto. apply all_chars_forallb. exact H2. Qed.

Lemma mx_now : forall ty, plain_value ty "fn::CURRENT_TIMESTAMP" (EFunc "CURRENT_TIMESTAMP").
Proof.
  intros ty. apply (pv_now ty "CURRENT_TIMESTAMP"); [vm_compute; tauto|apply all_chars_forallb; reflexivity].
Qed.

Lemma mx_user_plain : plain_table mx_reserved "_uq" mx_user.
Proof.
  constructor.
  - plain_ident_tac.
  - no_char.
  - split; [discriminate|]. repeat apply Forall_cons; [| | | | |apply Forall_nil].
    + plain_column_tac; [exists []; now constructor|exists []; now constructor].
    + plain_column_tac; [eexists; eapply dm_some, pv_text; [now right|discriminate|plain_text_tac|reflexivity]|exists []; now constructor].
    + plain_column_tac; [|exists []; now constructor].
      eexists. eapply dm_some, (pv_dec "decimal" "1" "50"); try discriminate; apply mx_digits; try discriminate; reflexivity.
    + plain_column_tac; [exists []; now constructor|exists []; now constructor].
    + plain_column_tac; [eexists; eapply dm_some, mx_now|].
      eexists. eapply (um_some _ "CURRENT_TIMESTAMP"); [reflexivity|vm_compute; tauto|apply all_chars_forallb; reflexivity].
  - repeat constructor; try discriminate; no_char.
Qed.

Lemma mx_log_plain : plain_table mx_reserved "_uq" mx_log.
Proof.
  constructor.
  - plain_ident_tac.
  - no_char.
  - split; [discriminate|]. apply Forall_cons; [|apply Forall_nil].
    plain_column_tac; [exists []; now constructor|exists []; now constructor].
  - constructor.
Qed.

Lemma mx_plain : Forall (plain_table mx_reserved "_uq") (filter (passes None) (s_tables mx_schema)).
Proof.
  change (filter (passes None) (s_tables mx_schema)) with [mx_user; mx_log].
  apply Forall_cons; [exact mx_user_plain|]. apply Forall_cons; [exact mx_log_plain|apply Forall_nil].
Qed.

Lemma mx_survives : Forall (fun t => NoDup (map c_name (t_cols t)) /\ Forall survives (t_cols t))
  (filter (passes None) (s_tables mx_schema)).
Proof.
  change (filter (passes None) (s_tables mx_schema)) with [mx_user; mx_log].
  apply Forall_cons; [|apply Forall_cons; [|apply Forall_nil]].
  - split; [repeat constructor; simpl; intuition discriminate|].
    repeat apply Forall_cons; [| | | | |apply Forall_nil].
    + constructor; [split; reflexivity|cbn; auto|now left|now left|reflexivity].
    + constructor; [split; reflexivity|cbn; repeat split; discriminate| |now left|discriminate].
      right. right. apply pv_text; [now right|discriminate|plain_text_tac|reflexivity].
    + constructor; [split; reflexivity|cbn; split; [reflexivity|discriminate]| |now left|discriminate].
      right. right. apply (pv_dec "decimal" "1" "50"); try discriminate; apply mx_digits; try discriminate; reflexivity.
    + constructor; [split; reflexivity|cbn; repeat split; discriminate|now left|now left|discriminate].
    + constructor; [split; reflexivity|cbn; auto|right; now left|now right|discriminate].
  - split; [repeat constructor; simpl; tauto|]. apply Forall_cons; [|apply Forall_nil].
    constructor; [split; reflexivity|cbn; auto|now left|now left|discriminate].
Qed.

(** two tables with the same text *)
Definition mx_col (d c : string) := mkCol "n" "int32" c 0 0 false false false false d "" [] None.
Definition mx_t1 := mkTable "t" [mx_col "1 COMMENT 'x'" ""] "" "" "" [].
Definition mx_t2 := mkTable "t" [mx_col "1" "x"] "" "" "" [].

(** types that change *)
Definition mx_ty (ty : string) (n s : N) := mkCol "n" ty "" n s false false false false "" "" [] None.

(** parsed statements for the importer *)
Definition mx_ft_int := mkFT TpLong (-1) (-1) false [] "int" "int".
Definition mx_stmts := [
  SCreateTable "a" [
    mkColDef "x" mx_ft_int [ONotNull; ONull; ODefault (EValue (Some "1")); ODefault (EFunc "RAND")];
    mkColDef "y" mx_ft_int [ONull; OPrimaryKey; OComment "c1"; OComment "c2"];
    mkColDef "z" mx_ft_int [OUniqKey; OAutoIncrement]]
    [KUniq "u" ["x"]; KPrimaryKey ["z"]; KIndex "i" ["x"; "y"]; KIndex "j" []];
  SOther; SCreateTable "skip" [] []; SCreateTable "b" [] [] ].
