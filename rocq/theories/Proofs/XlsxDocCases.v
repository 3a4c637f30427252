(** The example of docs/xlsx.md as a workbook *)
From Coq Require Import String Ascii List NArith Bool Lia Sorting.Permutation.
From Verif.Model Require Import GoString Util Octopus Common Json JsonText Xlsx Cli.
From Verif.Spec Require Import Text OctopusSpec JsonSpec CliSpec DiffSpec FormatSpec XlsxSpec XlsxDocSpec.
From Verif.Proofs Require Import StringLemmas ListLemmas OctopusProofs XlsxText XlsxRound XlsxWitnesses XlsxDocProofs CliCases.
Import ListNotations.
Local Open Scope string_scope.

Definition doc_rows_of (autoinc ref : string) : list (list string) :=
  [["table/ref."; "column"; "type"; "key"; "not null"; "attributes"; "description"];
   ["group"; ""; "table"; ""; ""; "class=UserGroup"; "User Group"];
   [""; "id"; "int64"; "P"; "O"; autoinc; ""];
   [""; "name"; "varchar(20)"; "U"; "O"; ""; "group name"];
   [""; "created_at"; "datetime"; ""; "O"; "default=fn::CURRENT_TIMESTAMP"; ""];
   [""; "updated_at"; "datetime"; ""; "O"; "default=fn::CURRENT_TIMESTAMP,onUpdate=fn::CURRENT_TIMESTAMP"; ""];
   [];
   ["user"; ""; "table"; ""; ""; ""; "User"];
   [""; "id"; "int64"; "P"; "O"; autoinc; "user id"];
   [""; "name"; "varchar(40)"; ""; "O"; ""; " user name"];
   [ref; "group_id"; "long"; ""; "O"; ""; "group id"];
   ["user_idx"; "name"; ""; "I"];
   ["user_idx"; "group_id"; ""; "I"; ""; ""; ""]].
Definition doc_file (autoinc ref : string) : list (string * list (list string)) :=
  [("Meta", [["author"; "me"]; ["version"; "1.0"]; []; []]); ("Common", doc_rows_of autoinc ref)].
Definition doc_described : schema :=
  mkSchema "me" "" "1.0"
    [mkTable "group"
       [mkCol "id" "int64" "" 0 0 true true false true "" "" [] None;
        mkCol "name" "varchar" "group name" 20 0 true false true false "" "" [] None;
        mkCol "created_at" "datetime" "" 0 0 true false false false "fn::CURRENT_TIMESTAMP" "" [] None;
        mkCol "updated_at" "datetime" "" 0 0 true false false false "fn::CURRENT_TIMESTAMP" "fn::CURRENT_TIMESTAMP" [] None]
       "User Group" "Common" "UserGroup" [];
     mkTable "user"
       [mkCol "id" "int64" "user id" 0 0 true true false true "" "" [] None;
        mkCol "name" "varchar" "user name" 40 0 true false false false "" "" [] None;
        mkCol "group_id" "long" "group id" 0 0 true false false false "" "" [] (Some (mkRef "group" "id" "n:1"))]
       "User" "Common" "" [mkIdx "user_idx" ["name"; "group_id"]]].

Lemma cell_checked : forall r i x, nth i r "" = x -> String.eqb (trim_space x) x = true -> cell_is r i x.
Proof.
  intros r i x E T. split; [now apply trim_fix|]. exists "", "". split; [intros c []|]. split; [intros c []|]. cbn. now rewrite app_nil_r_s.
Qed.
Ltac cell_ok := apply cell_checked; vm_compute; reflexivity.
Ltac letters := let c := fresh in let C := fresh in intros c C; cbn in C;
  repeat (destruct C as [->|C]; [first [reflexivity|left; reflexivity|right; reflexivity]|]); destruct C.
Lemma no_attr : forall w, doc_cell w [] "" /\ doc_attrs_ok [].
Proof. intros w. split; [constructor; intros c []|]. split; [constructor|]. repeat split; intros v v' []. Qed.
Lemma one_attr : forall w a, attr_value (doc_attr_value a) -> doc_cell w [a] (doc_attr_text w a) /\ doc_attrs_ok [a].
Proof.
  intros w a A. split.
  - pose proof (dc_one w a "" "" blank_nil blank_nil) as D. cbn [append] in D. now rewrite app_nil_r_s in D.
  - split; [constructor; [exact A|constructor]|]. repeat split; intros v v' [E|[]] [E'|[]]; congruence.
Qed.
Lemma two_attrs : forall w a b, attr_value (doc_attr_value a) -> attr_value (doc_attr_value b) ->
  (forall make v v', (make = DDefault \/ make = DOnUpdate \/ make = DClass) -> In (make v) [a; b] -> In (make v') [a; b] -> v = v') ->
  doc_cell w [a; b] (doc_attr_text w a ++ "," ++ doc_attr_text w b) /\ doc_attrs_ok [a; b].
Proof.
  intros w a b A B U. split.
  - pose proof (dc_more w a "" "" _ _ blank_nil blank_nil (proj1 (one_attr w b B))) as D. cbn [append] in D. exact D.
  - split; [constructor; [exact A|constructor; [exact B|constructor]]|]. split; [|split]; intros v v' X Y; [refine (U DDefault v v' _ X Y)|refine (U DOnUpdate v v' _ X Y)|refine (U DClass v v' _ X Y)]; tauto.
Qed.
Ltac value_ok := first [left; cbn; repeat (first [left; reflexivity|right]); fail|right; split; [reflexivity|intros x X; cbn in X; intuition discriminate]].
Ltac type_ok :=
  first [apply tt_plain; [discriminate|discriminate|letters]
        |match goal with |- type_text _ ?ty ?n _ => apply (tt_size ty n); [discriminate|letters|reflexivity] end].
Ltac key_ok := first [left; split; [cell_ok|split; reflexivity]|right; left; split; [cell_ok|split; reflexivity]|right; right; split; [cell_ok|split; reflexivity]].
Ltac null_ok := first [left; split; [cell_ok|reflexivity]|right; split; [cell_ok|reflexivity]].

Lemma column_checked : forall sp nn r c text l, c_name c <> "" -> cell_is r 1 (c_name c) -> cell_is r 2 text ->
  type_text text (c_type c) (c_size c) (c_scale c) ->
  (cell_is r 3 "P" /\ c_pk c = true /\ c_uq c = false \/ cell_is r 3 "U" /\ c_pk c = false /\ c_uq c = true \/
   cell_is r 3 "" /\ c_pk c = false /\ c_uq c = false) ->
  (cell_is r 4 "O" /\ c_notnull c = nn \/ cell_is r 4 "" /\ c_notnull c = negb nn) ->
  attributes_are sp r l -> (c_autoinc c = true <-> In DAutoinc l) ->
  attribute_value DDefault l (c_default c) -> attribute_value DOnUpdate l (c_onupdate c) ->
  cell_is r 6 (c_desc c) ->
  (cell_is r 0 "" /\ c_ref c = None \/
   exists r' text, c_ref c = Some r' /\ reference_names r' /\ reference_cell sp r' text /\ cell_is r 0 text) ->
  c_values c = [] -> doc_column_row sp nn r c.
Proof. intros. unfold doc_column_row. eauto 30. Qed.
Definition doc_ref (sp : spelling) : string := match sp with Documented => ">group.id" | Working => "group.id" end.
Lemma stamp : attr_value "fn::CURRENT_TIMESTAMP".
Proof. apply attr_fix; vm_compute; reflexivity. Qed.
Lemma none : attr_value "".
Proof. apply attr_fix; vm_compute; reflexivity. Qed.
Lemma ref_checked : forall sp, reference_names (mkRef "group" "id" "n:1") /\ reference_cell sp (mkRef "group" "id" "n:1") (doc_ref sp).
Proof.
  intros sp. split.
  - split; [discriminate|]. split; [discriminate|]. cbn [ref_table ref_column ref_rel].
    split; [cbn; intuition discriminate|]. split; [cbn; intuition discriminate|].
    split; [apply starts_app; reflexivity|]. split; [exact (ends_snoc "i" "d" eq_refl)|].
    intros [] x; discriminate.
  - destruct sp; [exists ManyToOne; split; reflexivity|split; reflexivity].
Qed.
Ltac column_ok text l := apply (column_checked _ _ _ _ text l);
  [discriminate|cell_ok|cell_ok|type_ok|key_ok|null_ok| | | | |cell_ok| |reflexivity].
Lemma doc_file_ok : forall sp, doc_workbook sp (doc_file (autoinc_word sp) (doc_ref sp)) doc_described.
Proof.
  intros sp. exists [], [["author"; "me"]; ["version"; "1.0"]; []; []], [("Common", doc_rows_of (autoinc_word sp) (doc_ref sp))], [], [s_tables doc_described].
  split; [reflexivity|]. split.
  { constructor; [intros [X|[]]; discriminate X|]. constructor; [intros []|constructor]. }
  split.
  { split; [|split].
    - left. split; [eexists; split; [now left|reflexivity]|]. intros r R; cbn in R. intuition (subst; cbn in *; try discriminate; reflexivity).
    - right. split; [reflexivity|]. intros r R; cbn in R. intuition (subst; cbn in *; discriminate).
    - left. split; [eexists; split; [right; now left|reflexivity]|]. intros r R; cbn in R. intuition (subst; cbn in *; try discriminate; reflexivity). }
  split; [constructor|]. split; [|reflexivity]. constructor; [|constructor].
  exists (hd [] (doc_rows_of (autoinc_word sp) (doc_ref sp))), true, [],
    [firstn 6 (tl (doc_rows_of (autoinc_word sp) (doc_ref sp))); skipn 6 (tl (doc_rows_of (autoinc_word sp) (doc_ref sp)))].
  split; [reflexivity|]. do 7 (split; [cell_ok|]). split; [constructor|]. split; [|repeat constructor].
  constructor; [|constructor; [|constructor]].
  - do 2 eexists. exists [], [DClass "UserGroup"]. split; [reflexivity|]. split; [discriminate|]. do 5 (split; [cell_ok|]).
    split; [apply one_attr; apply attr_fix; vm_compute; reflexivity|]. split; [value_ok|]. split; [cell_ok|]. split; [|apply combined_nil].
    apply dr_column; [column_ok "int64" [DAutoinc]; [apply one_attr, none|cbn; tauto|value_ok|value_ok|left; split; [cell_ok|reflexivity]]|].
    apply dr_column; [column_ok "varchar(20)" (@nil doc_attr); [apply no_attr|cbn; intuition discriminate|value_ok|value_ok|left; split; [cell_ok|reflexivity]]|].
    apply dr_column; [column_ok "datetime" [DDefault "fn::CURRENT_TIMESTAMP"]; [apply one_attr, stamp|cbn; intuition discriminate|value_ok|value_ok|left; split; [cell_ok|reflexivity]]|].
    apply dr_column.
    { column_ok "datetime" [DDefault "fn::CURRENT_TIMESTAMP"; DOnUpdate "fn::CURRENT_TIMESTAMP"];
        [apply two_attrs; [apply stamp|apply stamp|]|cbn; intuition discriminate|value_ok|value_ok|left; split; [cell_ok|reflexivity]].
      intros make v v' [-> | [-> | ->]] [X|[X|[]]] [Y|[Y|[]]]; congruence. }
    apply dr_blank; [intros i; destruct i; intros c []|]. constructor.
  - do 2 eexists. exists [("user_idx", "name"); ("user_idx", "group_id")], (@nil doc_attr). split; [reflexivity|]. split; [discriminate|]. do 5 (split; [cell_ok|]).
    split; [apply no_attr|]. split; [value_ok|]. split; [cell_ok|]. split; [|apply combined_is; reflexivity].
    apply dr_column; [column_ok "int64" [DAutoinc]; [apply one_attr, none|cbn; tauto|value_ok|value_ok|left; split; [cell_ok|reflexivity]]|].
    apply dr_column.
    { apply (column_checked _ _ _ _ "varchar(40)" (@nil doc_attr));
      [discriminate|cell_ok|cell_ok|type_ok|key_ok|null_ok|apply no_attr|cbn; intuition discriminate|value_ok|value_ok| |left; split; [cell_ok|reflexivity]|reflexivity].
      split; [apply trim_fix; vm_compute; reflexivity|]. exists " ", "". split; [exact blank_space|]. split; [exact blank_nil|reflexivity]. }
    apply dr_column.
    { column_ok "long" (@nil doc_attr); [apply no_attr|cbn; intuition discriminate|value_ok|value_ok|].
      right. exists (mkRef "group" "id" "n:1"), (doc_ref sp). split; [reflexivity|]. destruct (ref_checked sp). split; [assumption|]. split; [assumption|].
      destruct sp; cell_ok. }
    apply dr_index; [split; [discriminate|]; split; [discriminate|]; do 3 (split; [cell_ok|]); cell_ok|].
    apply dr_index; [split; [discriminate|]; split; [discriminate|]; do 3 (split; [cell_ok|]); cell_ok|]. constructor.
Qed.

Definition workbook_world (wb : list (string * list (list string))) : world :=
  mkWorld (w_camel sample_world) (w_lower_camel sample_world) (w_snake sample_world) (w_plural sample_world) (w_join sample_world)
    (w_sort sample_world) (w_sort_v1 sample_world) (w_sql sample_world) (fun _ => Some wb) (w_save_xlsx sample_world)
    (w_sheet_ok sample_world) (w_yaml sample_world) (w_float_ok sample_world)
    (fun l => l) (fun _ l => l) (fun l => l) (fun _ l => l) (fun _ l => l).
Lemma described_checked : schema_utf8 doc_described /\ distinct_table_keys doc_described /\ (forall c, In c (columns_of doc_described) -> repairable c).
Proof.
  split; [apply utf8_checked; vm_compute; reflexivity|]. split.
  - unfold distinct_table_keys. cbn. constructor; [intros [X|[]]; discriminate X|]. constructor; [intros []|constructor].
  - intros c C. apply repairable_iff. cbn in C. repeat (destruct C as [<-|C]; [vm_compute; reflexivity|]). destruct C.
Qed.
Definition xlsx_values : values := option_values [("input", "a.xlsx"); ("output", "a.json")].
Definition documented_world : world := workbook_world (doc_file "autoinc" ">group.id").
Definition documented_out : string := text_written (run documented_world (fun _ => Some "") ImportXlsx xlsx_values).
Definition documented_back : schema := schema_of (load_file documented_world (fun _ => Some documented_out) "a.json").
Lemma autoinc_lost : forall s', forallb (fun c => negb (c_autoinc c)) (columns_of s') = true ->
  forallb (fun c => implb (String.eqb (c_name c) "id") (str_in (c_type c) integer_types)) (columns_of s') = true ->
  ~ schema_repaired doc_described s'.
Proof.
  intros s' B1 B2 ((ts & P & Q) & _). rewrite forallb_forall in B1, B2.
  assert (I : exists t c, In t ts /\ In c (t_cols t) /\ c_autoinc c = true /\ c_name c = "id").
  { exists (hd (mkTable "" [] "" "" "" []) (s_tables doc_described)). eexists. split; [apply (Permutation_in _ (Permutation_sym P)); now left|].
    split; [now left|split; reflexivity]. }
  destruct I as (t & c & I & C & A & N). apply (Forall2_in_l _ _ _ _ Q) in I as (t' & I' & (TC & _)).
  apply (Forall2_in_l _ _ _ _ TC) in C as (c' & C' & (_ & AI & CN & _)).
  assert (X : In c' (columns_of s')) by (unfold columns_of; apply in_flat_map; exists t'; split; assumption).
  specialize (B1 c' X). specialize (B2 c' X). apply negb_true_iff in B1. rewrite CN, N in B2.
  cbn [String.eqb Ascii.eqb Bool.eqb implb] in B2. apply str_in_iff in B2.
  assert (Y : c_autoinc c' = true) by (apply AI; auto). congruence.
Qed.
Lemma documented_refuted : exists w fs v text wb s, sorts_tables (w_sort w) /\ iteration_order (w_ord_keys w) /\
  v "input" <> None /\ v "output" <> None /\ fs (given v "input") = Some text /\ w_open_xlsx w text = Some wb /\
  doc_workbook Documented wb s /\ schema_utf8 s /\ distinct_table_keys s /\ (forall c, In c (columns_of s) -> repairable c) /\
  exists out, run w fs ImportXlsx v = ([(given v "output", out)], Done) /\
    forall fs' name s', octopus_name name -> fs' name = Some out -> load_file w fs' name = Loaded s' -> ~ schema_repaired s s'.
Proof.
  exists documented_world, (fun _ => Some ""), xlsx_values, "", (doc_file "autoinc" ">group.id"), doc_described.
  split; [exact sample_sorts|]. split; [intros l; reflexivity|]. split; [discriminate|]. split; [discriminate|]. split; [reflexivity|]. split; [reflexivity|].
  split; [exact (doc_file_ok Documented)|]. destruct described_checked as (U & D & R). split; [exact U|]. split; [exact D|]. split; [exact R|].
  exists documented_out. split; [vm_compute; reflexivity|].
  intros fs' name s' On F L.
  assert (L' : load_file documented_world (fun _ => Some documented_out) "a.json" = Loaded documented_back) by (vm_compute; reflexivity).
  assert (E : s' = documented_back).
  { unfold load_file in L, L'. rewrite (CliLoad.accepts_octopus _ On) in L. rewrite F in L.
    change (load_schema_accepts "a.json") with true in L'. cbn iota in L'. rewrite L' in L. congruence. }
  rewrite E. apply autoinc_lost; vm_compute; reflexivity.
Qed.
