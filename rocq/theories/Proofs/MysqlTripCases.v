(** A concrete schema on its way through MySQL DDL *)
From Coq Require Import String Ascii List NArith ZArith Bool.
From Verif.Model Require Import GoString Util Octopus Common Mysql Cli.
From Verif.Spec Require Import Text OctopusSpec MysqlGrammar MysqlSpec CliSpec OptionsSpec GroupSpec EndSpec TripSpec.
From Verif.Proofs Require Import ListLemmas StringLemmas OctopusProofs MysqlLex MysqlWitnesses ServerProofs CliCases EndToEnd EndCases.
Import ListNotations.
Local Open Scope string_scope.

(** what comes back is different: the flag is a boolean, the number a double, the identifier not null, the default 7, the
    time stamp's default spelled out, the null default gone, and so are group, description and reference *)
Definition tx_col (n ty : string) (size : N) (nn pk ai : bool) (d : string) := mkCol n ty "" size 0 nn pk false ai d "" [] None.
Definition tx_id := tx_col "id" "int64" 0 false true true "".
Definition tx_flag := tx_col "flag" "int8" 1 true false false "007".
Definition tx_number := tx_col "number" "float" 30 false false false "null".
Definition tx_at := tx_col "at" "datetime" 0 false false false "fn::now".
Definition tx_owner := mkCol "owner" "int32" "who" 0 0 false false false false "" "" [] (Some (mkRef "user" "id" "n:1")).
Definition tx_table := mkTable "item" [tx_id; tx_flag; tx_number; tx_at; tx_owner] "an item" "g" "" [].
Definition tx_schema := mkSchema "me" "s" "1" [tx_table].

Lemma tx_plain : plain_table mx_reserved "_uq" tx_table.
Proof.
  constructor; [plain_ident_tac|no_char| |constructor]. split; [discriminate|].
  apply Forall_cons; [plain_column_tac; [exists []; now constructor|exists []; now constructor]|].
  apply Forall_cons.
  { plain_column_tac; [|exists []; now constructor]. eexists. eapply dm_some, (pv_int _ "007" 7); try discriminate; [|reflexivity].
    apply mx_digits; [discriminate|reflexivity]. }
  apply Forall_cons.
  { plain_column_tac; [|exists []; now constructor]. eexists. eapply dm_some, (pv_null _ "null"); try discriminate. reflexivity. }
  apply Forall_cons.
  { plain_column_tac; [|exists []; now constructor]. eexists. eapply dm_some, (pv_now _ "now"); [vm_compute; tauto|apply all_chars_forallb; reflexivity]. }
  apply Forall_cons; [plain_column_tac; [exists []; now constructor|exists []; now constructor]|apply Forall_nil].
Qed.
Lemma tx_sized : sized_table tx_table.
Proof.
  split; [apply distinctb_iff; reflexivity|]. repeat constructor.
Qed.

Definition tx_read (s : schema) : list my_stmt := match read_sql mx_reserved (my_export None "_uq" s) with Some l => l | None => [] end.
Definition tx_back : schema := import_stmts [] "me" "1" (tx_read tx_schema).

Lemma trip_case :
  Forall (plain_table mx_reserved "_uq") (filter (passes None) (s_tables tx_schema)) /\
  Forall sized_table (filter (passes None) (s_tables tx_schema)) /\
  s_tables tx_back =
    [mkTable "item" [tx_col "id" "int64" 0 true true true ""; tx_col "flag" "boolean" 0 true false false "7";
                     tx_col "number" "double" 0 false false false ""; tx_col "at" "datetime" 0 false false false "fn::CURRENT_TIMESTAMP";
                     mkCol "owner" "int32" "who" 0 0 false false false false "" "" [] None] "" "" "" []] /\
  import_sql [] "me" "1" (tx_read tx_back) = Ok tx_back.
Proof.
  split; [constructor; [exact tx_plain|constructor]|]. split; [constructor; [exact tx_sized|constructor]|].
  split; vm_compute; reflexivity.
Qed.

(** a key of one digit that counts up comes back as a boolean, and in the file it does not count any more *)
Definition tx_small := mkTable "small" [tx_col "id" "int8" 1 false true true ""] "" "h" "" [].
Definition tx_both := mkSchema "me" "s" "1" [tx_table; tx_small].
Lemma tx_small_plain : plain_table mx_reserved "_uq" tx_small.
Proof.
  constructor; [plain_ident_tac|no_char| |constructor]. split; [discriminate|].
  apply Forall_cons; [plain_column_tac; [exists []; now constructor|exists []; now constructor]|apply Forall_nil].
Qed.

Definition tx_export := option_values [("input", "a.json"); ("output", "a.sql"); ("uniqueNameSuffix", "_uq")].
Definition tx_import := option_values [("input", "a.sql"); ("output", "b.json"); ("author", "you")].

Lemma trips_case :
  load_file end_world (fun _ => Some (ex_text tx_both)) "a.json" = Loaded tx_both /\ valid_schema tx_both /\
  picked (chosen (given tx_export "groups")) (s_tables tx_both) [tx_table; tx_small] /\
  Forall (plain_table mx_reserved "_uq") [tx_table; tx_small] /\ NoDup (map t_name [tx_table; tx_small]) /\
  (forall t, In t [tx_table; tx_small] -> NoDup (map c_name (t_cols t))) /\
  load_file end_world
    (fun _ => Some (text_written (run end_world (fun _ => Some (text_written (run end_world (fun _ => Some (ex_text tx_both)) ExportMysql tx_export)))
                                    ImportMysql tx_import))) "b.json" =
    Loaded (mkSchema "you" "" "" (s_tables tx_back ++ [mkTable "small" [tx_col "id" "boolean" 0 true true false ""] "" "" "" []])).
Proof.
  split; [vm_compute; reflexivity|].
  split. { intros c C. cbn in C. repeat (destruct C as [<-|C]; [vm_compute; intuition (discriminate || auto 20)|]). destruct C. }
  split; [apply picked_all|]. split; [constructor; [exact tx_plain|constructor; [exact tx_small_plain|constructor]]|].
  split; [apply distinctb_iff; reflexivity|].
  split; [|vm_compute; reflexivity]. intros t [<-|[<-|[]]]; apply distinctb_iff; reflexivity.
Qed.
