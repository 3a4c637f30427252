(** A sample world for the examples and counterexamples about commands *)
From Coq Require Import String Ascii List NArith ZArith Bool Sorting.Permutation.
From Verif.Model Require Import GoString GoPath Util Octopus Common Json JsonText Ojson Staruml Mysql Xlsx Liquibase DiffCore Cli.
From Verif.Spec Require Import Text OctopusSpec CommonSpec JsonSpec CliSpec.
From Verif.Proofs Require Import JpaCases OctopusProofs OjsonProofs JsonTextProofs.
Import ListNotations.
Local Open Scope string_scope.

(** not YAML, but different change logs are mostly written differently *)
Definition show_bool (b : option bool) : string := match b with None => "-" | Some true => "t" | Some false => "f" end.
Definition show_default (d : lq_default) : string :=
  join "," [dv_value d; show_bool (dv_bool d); match dv_num d with None => "" | Some (LqInt _) => "int" | Some (LqFloat s) => s end; dv_date d].
Definition show_column (c : lq_column) : string :=
  join "," [lc_name c; lc_type c; show_bool (lc_autoinc c);
            match lc_constraints c with None => "" | Some k => show_bool (k_pk k) ++ show_bool (k_nullable k) ++ show_bool (k_unique k) end;
            lc_remarks c; show_default (lc_default c); lc_after c].
Definition show_change (c : lq_change) : string :=
  join " "
  match c with
  | LqCreateTable t r cs => "createTable" :: t :: r :: map show_column cs
  | LqDropTable t => ["dropTable"; t]
  | LqRenameTable n o => ["renameTable"; n; o]
  | LqSetTableRemarks t r => ["setTableRemarks"; t; r]
  | LqAddColumn t cs => "addColumn" :: t :: map show_column cs
  | LqDropColumn t c => ["dropColumn"; t; c]
  | LqSetColumnRemarks t c r => ["setColumnRemarks"; t; c; r]
  | LqModifyDataType t c y => ["modifyDataType"; t; c; y]
  | LqRenameColumn t n o y => ["renameColumn"; t; n; o; y]
  | LqAddNotNullConstraint t c y d => ["addNotNull"; t; c; y; d]
  | LqDropNotNullConstraint t c y => ["dropNotNull"; t; c; y]
  | LqAddAutoIncrement t c y => ["addAutoIncrement"; t; c; y]
  | LqAddDefaultValue t c y d => ["addDefault"; t; c; y; show_default d]
  | LqDropDefaultValue t c y => ["dropDefault"; t; c; y]
  | LqAddPrimaryKey t cs => ["addPrimaryKey"; t; cs]
  | LqDropPrimaryKey t => ["dropPrimaryKey"; t]
  | LqAddUniqueConstraint t cs n => ["addUnique"; t; cs; n]
  | LqDropUniqueConstraint t n => ["dropUnique"; t; n]
  end.
Definition show_cset (c : lq_cset) : string :=
  join " " (lq_id c :: lq_author c :: (if lq_pre c then "pre" else "") :: map show_change (lq_changes c)).
Definition show_log (l : list lq_cset) : string := join "; " (map show_cset l).
(** not a workbook *)
Definition show_workbook (l : list (string * list (list string))) : string :=
  join ";" (map (fun p => fst p ++ ":" ++ join "|" (map (join ",") (snd p))) l).

Definition sample_world : world :=
  mkWorld kt_camel kt_lower_camel kt_snake (fun s => s ++ "s") path_join isort_tables isort_v1
    (fun text => if String.eqb text "CREATE TABLE T(A INT);"
                 then Some [SCreateTable "T" [mkColDef "A" (mkFT TpLong (-1) (-1) false [] "int(11)" "int") []] []; SOther]
                 else if String.eqb text "" then Some [] else None)
    (fun text => if String.eqb text "no sheets" then Some [] else if String.eqb text "workbook" then Some [("Meta", [["author"; "me"]; ["name"; "n"]; ["version"; "v"]])] else None)
    show_workbook (fun _ => true)
    show_log (fun s => str_in s ["1.5"; "3"])
    (fun l => l) (fun _ l => l) (fun l => l) (fun _ l => l) (fun _ l => l).

(** ** C77 *)

Lemma utf8_checked : forall s, forallb (fun x => String.eqb (clean x) x) (schema_strings s) = true -> schema_utf8 s.
Proof.
  intros s H x X. rewrite forallb_forall in H. specialize (H x X). apply String.eqb_eq in H. rewrite <- H.
  apply clean_is_utf8.
Qed.
Lemma fits_checked : forall s, forallb (fun c => N.ltb (c_size c) 65536 && N.ltb (c_scale c) 65536) (columns_of s) = true -> fits_u16 s.
Proof.
  intros s H c C. rewrite forallb_forall in H. specialize (H c C). apply andb_true_iff in H as [A B].
  apply N.ltb_lt in A, B. auto.
Qed.
Lemma json_name : forall pre, octopus_name (pre ++ ".json").
Proof. intros pre. exists pre, "json". split; [reflexivity|]. split; [split; intros H; cbn in H; intuition discriminate|now left]. Qed.

(** byte 228 is a letter in ISO 8859-1 *)
Definition latin1_case : schema := mkSchema "" "" "" [mkTable "t" [] (String "228" "") "" "" []].
Definition saved_text (o : option string) : string := match o with Some t => t | None => "" end.
Definition schema_of (l : loaded) : schema := match l with Loaded s => s | _ => mkSchema "" "" "" [] end.
Definition latin1_text : string := saved_text (to_text isort_tables latin1_case).
Definition latin1_back : schema := schema_of (load_file sample_world (fun _ => Some latin1_text) "db.json").
Lemma latin1_lost : exists s text s', valid_schema s /\ to_text isort_tables s = Some text /\
  load_file sample_world (fun _ => Some text) "db.json" = Loaded s' /\
  map t_desc (s_tables s') <> map t_desc (s_tables s).
Proof.
  exists latin1_case, latin1_text, latin1_back. split; [intros c []|]. split; [vm_compute; reflexivity|].
  split; [vm_compute; reflexivity|]. vm_compute. discriminate.
Qed.

Definition texts_case : schema :=
  mkSchema "a ""quoted"" \ name" "<n&m>" (String "001" (String "127" (String "010" "")))
    [mkTable "t" [mkCol "c" "varchar" (String "195" (String "164" "")) 100 0 true true false false "x" "" []
                    (Some (mkRef (String "226" (String "128" (String "168" ""))) "id" "n:1"));
                  mkCol "e" "enum" "" 0 0 false false false false "" "" ["a"; String "240" (String "159" (String "144" (String "153" "")))] None]
       "" "g" "T" [mkIdx "i" ["c"; "e"]]].
Definition texts_text : string := saved_text (to_text isort_tables texts_case).
Lemma texts_case_ok :
  fits_u16 texts_case /\ schema_utf8 texts_case /\ distinct_table_keys texts_case /\ octopus_name "dir/db.JSON" /\
  exists text, to_text isort_tables texts_case = Some text /\
    load_file sample_world (fun _ => Some text) "dir/db.JSON" = Loaded texts_case.
Proof.
  split; [apply fits_checked; reflexivity|]. split; [apply utf8_checked; vm_compute; reflexivity|].
  split; [repeat constructor; intros []|]. split.
  - exists "dir/db", "JSON". split; [reflexivity|]. split; [split; intros H; cbn in H; intuition discriminate|now left].
  - exists texts_text. split; vm_compute; reflexivity.
Qed.

(** ** Cases for the commands *)

Lemma sample_sorts : sorts_tables (w_sort sample_world).
Proof. exact isort_sorts. Qed.
Lemma go_name : has_extension ["go"] "x/y.GO".
Proof. exists "x/y", "GO". split; [reflexivity|]. split; [split; intros H; cbn in H; intuition discriminate|now left]. Qed.
Definition option_values (l : list (string * string)) : values := fun n => alist_find l n.
Definition star_text : string :=
"{""_type"": ""Project"", ""_id"": ""1"", ""name"": ""p"", ""ownedElements"": [
  {""_type"": ""ERDDataModel"", ""_id"": ""2"", ""ownedElements"": [
    {""_type"": ""ERDEntity"", ""_id"": ""3"", ""name"": ""user"", ""columns"": [
      {""_type"": ""ERDColumn"", ""_id"": ""4"", ""name"": ""id"", ""type"": ""INTEGER"", ""length"": ""10"", ""primaryKey"": true}]}]}]}".
Definition v1_text : string :=
"{""version"": ""1"", ""tables"": [{""name"": ""t"", ""columns"": [{""name"": ""a"", ""type"": ""long"", ""size"": 7}]}]}".
Definition text_written (o : outcome) : string := snd (hd ("", "") (fst o)).
Lemma imports_case : (forall l, Permutation (w_sort_v1 sample_world l) l) /\
  (exists text, run sample_world (fun _ => Some "CREATE TABLE T(A INT);") ImportMysql (option_values [("input", "a.sql"); ("output", "a.json")])
    = ([("a.json", text)], Done)) /\
  (exists text, run sample_world (fun _ => Some star_text) ImportStaruml (option_values [("input", "a.mdj"); ("output", "a.json")])
    = ([("a.json", text)], Done)) /\
  (exists text, run sample_world (fun _ => Some "workbook") ImportXlsx (option_values [("input", "a.xlsx"); ("output", "a.json")])
    = ([("a.json", text)], Done)) /\
  (exists text, run sample_world (fun _ => Some v1_text) ImportOjson (option_values [("input", "a.ojson"); ("output", "a.json")])
    = ([("a.json", text)], Done)).
Proof.
  split; [intros l; exact (proj1 (isort_v1_sorts l))|]. split; [|split; [|split]].
  - exists (text_written (run sample_world (fun _ => Some "CREATE TABLE T(A INT);") ImportMysql (option_values [("input", "a.sql"); ("output", "a.json")]))).
    vm_compute. reflexivity.
  - exists (text_written (run sample_world (fun _ => Some star_text) ImportStaruml (option_values [("input", "a.mdj"); ("output", "a.json")]))).
    vm_compute. reflexivity.
  - exists (text_written (run sample_world (fun _ => Some "workbook") ImportXlsx (option_values [("input", "a.xlsx"); ("output", "a.json")]))).
    vm_compute. reflexivity.
  - exists (text_written (run sample_world (fun _ => Some v1_text) ImportOjson (option_values [("input", "a.ojson"); ("output", "a.json")]))).
    vm_compute. reflexivity.
Qed.
