(** Concrete workbooks for C110 *)
From Coq Require Import String Ascii List NArith Bool Arith Lia Sorting.Permutation.
From Verif.Model Require Import GoString Util Octopus Common Json JsonText Xlsx Cli.
From Verif.Spec Require Import Text OctopusSpec XlsxSpec BookSpec DiffSpec JsonSpec CliSpec OptionsSpec EndSpec.
From Verif.Proofs Require Import ListLemmas OctopusProofs JsonTextProofs XlsxFacts CliCases EndCases XlsxTrips.
Import ListNotations.
Local Open Scope string_scope.

Definition book_header : list string := ["table/ref."; "column"; "type"; "key"; "not null"; "attributes"; "description"].
Definition one_book (rows : list (list string)) : list (string * list (list string)) := [("g", book_header :: rows)].
Lemma one_book_read : forall ord rows ts, iteration_order ord -> read_group_sheet "g" (book_header :: rows) = inl ts ->
  import_xlsx ord (one_book rows) = inl (mkSchema "" "" "" ts).
Proof.
  intros ord rows ts O R. unfold import_xlsx. change (group_names (one_book rows)) with ["g"].
  assert (E : ord ["g"] = ["g"]) by (apply Permutation_length_1_inv, Permutation_sym, O).
  rewrite E. cbn [read_sheets]. change (group_sheet (one_book rows) "g") with (book_header :: rows). rewrite R. reflexivity.
Qed.
Definition meta_book (s : schema) (un : bool) : list (string * list (list string)) := [("Meta", meta_rows s); ("g", group_rows un s "g")].
Lemma meta_book_read : forall ord s un ts, iteration_order ord -> read_group_sheet "g" (group_rows un s "g") = inl ts ->
  import_xlsx ord (meta_book s un) = inl (mkSchema (s_author s) (s_name s) (s_version s) ts).
Proof.
  intros ord s un ts O R. unfold import_xlsx. change (group_names (meta_book s un)) with ["g"].
  assert (E : ord ["g"] = ["g"]) by (apply Permutation_length_1_inv, Permutation_sym, O).
  rewrite E. cbn [read_sheets]. change (group_sheet (meta_book s un) "g") with (group_rows un s "g"). rewrite R. reflexivity.
Qed.

(** an on-update value besides another default value *)
Definition update_rows : list (list string) := [["t"; ""; "table"]; [""; "at"; "varchar(10)"; ""; ""; "default=a, onUpdate=z"; ""]].
Definition update_table (u : string) : table := mkTable "t" [mkCol "at" "varchar" "" 10 0 false false false false "a" u [] None] "" "g" "" [].
Lemma update_changes : exists wb s s', forall ord un, iteration_order ord ->
  import_xlsx ord wb = inl s /\ (forall c, In c (columns_of s) -> steady_type c) /\
  export_xlsx (fun _ => true) un s = Some (meta_book s un) /\ import_xlsx ord (meta_book s un) = inl s' /\
  s_tables s = [update_table "z"] /\ s_tables s' = [update_table "a"].
Proof.
  exists (one_book update_rows), (mkSchema "" "" "" [update_table "z"]), (mkSchema "" "" "" [update_table "a"]).
  intros ord un O. split; [apply one_book_read; [exact O|vm_compute; reflexivity]|].
  split. { intros c C. cbn in C. destruct C as [<-|[]]. intros H. discriminate H. }
  split; [destruct un; vm_compute; reflexivity|]. split; [apply meta_book_read; [exact O|destruct un; vm_compute; reflexivity]|]. split; reflexivity.
Qed.

(** 65536 is read as 0, and then the scale is not written *)
Definition wrap_rows (ty : string) : list (list string) := [["t"; ""; "table"]; ["u"; "a"; ty]].
Definition wrap_table (sc : N) : table := mkTable "t" [mkCol "a" "decimal" "" 0 sc false false false false "" "" [] None] "" "g" "" [].
Lemma wrap_changes : exists wb s s', forall ord un, iteration_order ord ->
  import_xlsx ord wb = inl s /\ export_xlsx (fun _ => true) un s = Some (meta_book s un) /\ import_xlsx ord (meta_book s un) = inl s' /\
  s_tables s = [wrap_table 2] /\ s_tables s' = [wrap_table 0].
Proof.
  exists (one_book (wrap_rows "decimal(65536,2)")), (mkSchema "" "" "" [wrap_table 2]), (mkSchema "" "" "" [wrap_table 0]).
  intros ord un O. split; [apply one_book_read; [exact O|vm_compute; reflexivity]|].
  split; [destruct un; vm_compute; reflexivity|]. split; [apply meta_book_read; [exact O|destruct un; vm_compute; reflexivity]|]. split; reflexivity.
Qed.

(** ** A workbook with something of everything *)
Definition full_book : list (string * list (list string)) :=
  [("Meta", [["author"; "me"]; []; ["version"; "3"; "x"]]);
   ("b", [book_header;
          ["not a table yet"; "x"; "y"];
          [" user "; ""; " table "; ""; ""; "class = U, class=Person ,"; " people "];
          [""; "id"; "int64"; "P"; "x"; " autoInc , autoInc"; ""];
          [">grp.id"; " name "; " VarChar ( 20 )"; "U"; ""; "default=a=b , onUpdate=a=b"; "  the name"];
          ["-grp.id"; "g"; "decimal( 7 , 2)"; ""; "O"; "onUpdate"; ""];
          [];
          ["ix"; "name"; ""; "I"]; ["iy"; "g"; ""; "I"]; ["ix"; "id"; ""; "I"]]);
   ("a", [["?"; ""; ""; ""; "nullable"]; ["grp"; ""; "table"]; ["a.b.c"; "id"; "int(11)"; ""; "O"]])].
Definition full_user (u : string) : table :=
  mkTable "user"
    [mkCol "id" "int64" "" 0 0 true true false true "" "" [] None;
     mkCol "name" "VarChar ( 20 )" "the name" 0 0 false false true false "a=b" "a=b" [] (Some (mkRef ">grp" "id" "n:1"));
     mkCol "g" "decimal( 7 , 2)" "" 0 0 true false false false "" u [] (Some (mkRef "-grp" "id" "1:1"))]
    "people" "b" "Person" [mkIdx "ix" ["name"; "id"]; mkIdx "iy" ["g"]].
Definition full_grp : table := mkTable "grp" [mkCol "id" "int" "" 11 0 false false false false "" "" [] None] "" "a" "" [].
Lemma full_trip :
  (forall sh, In sh full_book -> fst sh <> "") /\
  import_xlsx (fun l => l) full_book = inl (mkSchema "me" "" "3" [full_user "true"; full_grp]) /\
  (forall c, In c (columns_of (mkSchema "me" "" "3" [full_user "true"; full_grp])) -> steady_type c) /\
  exists wb1, export_xlsx (fun _ => true) true (mkSchema "me" "" "3" [full_user "true"; full_grp]) = Some wb1 /\
    import_xlsx (fun l => l) wb1 = inl (mkSchema "me" "" "3" [full_grp; full_user ""]).
Proof.
  split. { intros sh S. cbn in S. repeat (destruct S as [<-|S]; [discriminate|]). destruct S. }
  split; [vm_compute; reflexivity|]. split. { intros c C. cbn in C. repeat (destruct C as [<-|C]; [intros H; split; [reflexivity|discriminate]|]). destruct C. }
  eexists. split; [vm_compute; reflexivity|]. vm_compute. reflexivity.
Qed.

(** ** Files *)

Definition book_in := option_values [("input", "a.xlsx"); ("output", "b.json")].
Definition book_out := option_values [("input", "b.json"); ("output", "c.xlsx")].
Definition book_back := option_values [("input", "c.xlsx"); ("output", "d.json")].
Definition first_file (wb : list (string * list (list string))) : string :=
  text_written (run end_world (fun _ => Some (save_book wb)) ImportXlsx book_in).
Definition second_book (wb : list (string * list (list string))) : string :=
  text_written (run end_world (fun _ => Some (first_file wb)) ExportXlsx book_out).

(** the type of the cell bigint(20) is int64 with size 20, which is written as int64(20), and that is not a type *)
Definition bigint_book := one_book [["t"; ""; "table"]; [""; "id"; "bigint(20)"; "P"; "O"]].
Lemma bigint_fails :
  run end_world (fun _ => Some (save_book bigint_book)) ImportXlsx book_in = ([("b.json", first_file bigint_book)], Done) /\
  load_file end_world (fun _ => Some (first_file bigint_book)) "b.json" =
    Loaded (mkSchema "" "" "" [mkTable "t" [mkCol "id" "int64" "" 20 0 true true false false "" "" [] None] "" "g" "" []]) /\
  run end_world (fun _ => Some (first_file bigint_book)) ExportXlsx book_out = ([("c.xlsx", second_book bigint_book)], Done) /\
  run end_world (fun _ => Some (second_book bigint_book)) ImportXlsx book_back = failed.
Proof. split; [vm_compute; reflexivity|]. split; [vm_compute; reflexivity|]. split; vm_compute; reflexivity. Qed.

(** types in other words, which the first import puts right *)
Definition word_book : list (string * list (list string)) :=
  [("Meta", [["name"; "db"]]);
   ("b", [book_header; ["user"; ""; "table"; ""; ""; "class=U"; "people"];
          [""; "id"; "BIGINT"; "P"; "O"; "autoInc"; ""]; ["<grp.id"; "name"; "string(20)"; "U"; ""; "default=x, onUpdate=x, autoInc"; "n"];
          ["ix"; "name"; ""; "I"]]);
   ("a", [book_header; ["z"; ""; "table"]; [""; "id"; "INT"]; ["grp"; ""; "table"]; [""; "at"; "timestamp"; ""; "O"]])].
Definition word_schema : schema := mkSchema "" "db" ""
  [mkTable "grp" [mkCol "at" "datetime" "" 0 0 true false false false "" "" [] None] "" "a" "" [];
   mkTable "z" [mkCol "id" "int32" "" 0 0 false false false false "" "" [] None] "" "a" "" [];
   mkTable "user" [mkCol "id" "int64" "" 0 0 true true false true "" "" [] None;
                   mkCol "name" "varchar" "n" 20 0 false false true false "x" "x" [] (Some (mkRef "<grp" "id" "1:n"))] "people" "b" "U"
     [mkIdx "ix" ["name"]]].
Definition ascii_book (wb : list (string * list (list string))) : bool :=
  forallb (fun sh => (string_forallb (byte_in 0 127) (fst sh) && forallb (forallb (string_forallb (byte_in 0 127))) (snd sh))%bool) wb.
Lemma ascii_text : forall wb, ascii_book wb = true -> text_book wb.
Proof.
  intros wb H sh S. unfold ascii_book in H. rewrite forallb_forall in H. specialize (H sh S). apply andb_true_iff in H as [A B].
  split; [now apply utf8_ascii|]. intros r x R X. rewrite forallb_forall in B. specialize (B r R). rewrite forallb_forall in B. now apply utf8_ascii, B.
Qed.
Lemma word_files :
  w_open_xlsx end_world (save_book word_book) = Some word_book /\ text_book word_book /\
  (forall sh, In sh word_book -> fst sh <> "" /\ w_sheet_ok end_world (fst sh) = true) /\
  run end_world (fun _ => Some (save_book word_book)) ImportXlsx book_in = ([("b.json", first_file word_book)], Done) /\
  load_file end_world (fun _ => Some (first_file word_book)) "b.json" = Loaded word_schema /\
  (forall c, In c (columns_of word_schema) -> readable_type c /\ settled c) /\ distinct_table_keys word_schema.
Proof.
  split; [vm_compute; reflexivity|]. split; [apply ascii_text; vm_compute; reflexivity|].
  split. { intros sh S. cbn in S. repeat (destruct S as [<-|S]; [split; [discriminate|reflexivity]|]). destruct S. }
  split; [vm_compute; reflexivity|]. split; [vm_compute; reflexivity|]. split.
  - intros c C. cbn in C.
    repeat (destruct C as [<-|C]; [split; [split; [cbn; tauto|split; [reflexivity|split; [reflexivity|]]]|first [left; reflexivity|right; reflexivity]];
      first [left; split; reflexivity|right; split; [discriminate|]; intros x X; cbn in X; repeat (destruct X as [X|X]; [rewrite X; reflexivity|]); destruct X]|]).
    destruct C.
  - unfold distinct_table_keys. cbn. repeat (constructor; [cbn; intuition congruence|]). constructor.
Qed.
