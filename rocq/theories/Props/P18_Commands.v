(** What the commands write (C78 to C81) *)
From Coq Require Import String Ascii List NArith Bool Sorting.Permutation.
From Verif.Model Require Import GoString GoPath Util Octopus Common Json JsonText Ojson Cli.
From Verif.Spec Require Import Text OctopusSpec CommonSpec KotlinSpec CliSpec InitSpec.
From Verif.Proofs Require Import CliWrites CliImports CliInit CliCases.
Import ListNotations.
Local Open Scope string_scope.

(** C78. A command that fails or crashes writes nothing. False for the Kotlin generator: it writes
    the entity classes and then crashes at a table without a key. *)
Theorem C78_refuted : exists w fs v ws e, run w fs GenerateKt v = (ws, e) /\ e <> Done /\ ws <> [].
Proof. exact half_written. Qed.
Print Assumptions C78_refuted.

Theorem C78_partial : forall w fs c v ws e, c <> GenerateKt -> run w fs c v = (ws, e) -> e <> Done -> ws = [].
Proof. exact nothing_left. Qed.
Print Assumptions C78_partial.

(** the Kotlin generator leaves files behind for these two reasons only *)
Theorem C78_kt_partial : forall w fs v ws e, run w fs GenerateKt v = (ws, e) -> e <> Done -> ws <> [] ->
  exists s t, load_file w fs (given v "input") = Loaded s /\ In t (s_tables s) /\
    (given v "reposPackage" <> "" /\ keys t = [] \/
     given v "relation" = "VRelation" /\ exists c r, In c (t_cols t) /\ c_ref c = Some r).
Proof. exact kt_left. Qed.
Print Assumptions C78_kt_partial.

(** a column type that does not exist, a missing file, a missing option *)
Example C78_case :
  run sample_world (fun _ => Some "{""tables"": [{""name"": ""t"", ""columns"": [{""name"": """", ""type"": ""int""}]}]}") ImportOjson
    (option_values [("input", "a.ojson"); ("output", "b.json")]) = ([], Crashed) /\
  run sample_world (fun _ => None) ExportDbml (option_values [("input", "a.json"); ("output", "b.dbml")]) = ([], Failed) /\
  run sample_world (fun _ => Some "{}") ExportDbml (option_values [("input", "a.json")]) = ([], Failed) /\
  run sample_world (fun _ => Some "{}") ExportDbml (option_values [("input", "a.json"); ("output", "b.dbml")]) = ([("b.dbml", "")], Done).
Proof. vm_compute. auto. Qed.

(** C79. The files are written where the option "output" says: the file itself... *)
Theorem C79_single : forall w fs c v ws, single_file c -> run w fs c v = (ws, Done) ->
  exists text, ws = [(given v "output", text)].
Proof. exact one_output. Qed.
Print Assumptions C79_single.

(** ... or a file in the directory, unless the option has the extension of a file... *)
Theorem C79_gorm : forall w fs v ws, run w fs GenerateGorm v = (ws, Done) ->
  exists path text, ws = [(path, text)] /\
    (has_extension ["go"] (given v "output") -> path = given v "output") /\
    (~ has_extension ["go"] (given v "output") -> path = w_join w [given v "output"; "output.go"]).
Proof. exact gorm_output. Qed.
Print Assumptions C79_gorm.

Theorem C79_plantuml : forall w fs v ws, run w fs GeneratePlantuml v = (ws, Done) ->
  exists path text, ws = [(path, text)] /\
    (has_extension ["wsd"; "pu"; "puml"; "plantuml"; "iuml"] (given v "output") -> path = given v "output") /\
    (~ has_extension ["wsd"; "pu"; "puml"; "plantuml"; "iuml"] (given v "output") ->
       path = w_join w [given v "output"; "output.plantuml"]).
Proof. exact plantuml_output. Qed.
Print Assumptions C79_plantuml.

Theorem C79_sqlalchemy : forall w fs v ws, run w fs GenerateSqlalchemy v = (ws, Done) ->
  exists s ts, load_file w fs (given v "input") = Loaded s /\ incl ts (s_tables s) /\
    (given v "groups" = "" -> ts = s_tables s) /\
    (has_extension ["py"] (given v "output") -> map fst ws = [given v "output"]) /\
    (~ has_extension ["py"] (given v "output") ->
       map fst ws = map (fun t => given v "output" ++ "/" ++ t_name t ++ ".py") ts).
Proof. exact sqlalchemy_output. Qed.
Print Assumptions C79_sqlalchemy.

Theorem C79_graphql : forall w fs v ws, run w fs GenerateGraphql v = (ws, Done) ->
  exists s text, load_file w fs (given v "input") = Loaded s /\
    ws = [(w_join w [given v "output"; s_name s ++ "-" ++ s_version s ++ ".graphqls"], text)].
Proof. exact graphql_output. Qed.
Print Assumptions C79_graphql.

(** ... but a schema or table name with slashes leads out of the directory. *)
Theorem C79_graphql_refuted : exists w fs v path text, w_join w = path_join /\
  run w fs GenerateGraphql v = ([(path, text)], Done) /\ given v "output" = "out/dir" /\ path = "etc/x-1.graphqls".
Proof. exact graphql_escapes. Qed.
Print Assumptions C79_graphql_refuted.

Theorem C79_sqlalchemy_refuted : exists w fs v path text,
  run w fs GenerateSqlalchemy v = ([(path, text)], Done) /\ given v "output" = "out/dir" /\ path = "out/dir/../a.py".
Proof. exact sqlalchemy_escapes. Qed.
Print Assumptions C79_sqlalchemy_refuted.

Example C79_case :
  map (fun f => map fst (fst (run sample_world (fun _ => Some half_text) (fst f) (option_values [("input", "a.json"); ("output", snd f)]))))
    [(ExportMysql, "x/y.sql"); (GenerateGorm, "x/y.GO"); (GenerateGorm, "x/y"); (GeneratePlantuml, "a.PU"); (GeneratePlantuml, "a");
     (GenerateSqlalchemy, "m.py"); (GenerateSqlalchemy, "m"); (GenerateGraphql, "g")] =
  [["x/y.sql"]; ["x/y.GO"]; ["x/y/output.go"]; ["a.PU"]; ["a/output.plantuml"]; ["m.py"]; ["m/a.py"; "m/b.py"]; ["g/-.graphqls"]] /\
  has_extension ["go"] "x/y.GO".
Proof. split; [vm_compute; reflexivity|exact go_name]. Qed.

(** C80. "oct init" writes a valid schema file, in content the one that docs/init.md shows
    (the relationship of the reference is not shown there)... *)
Theorem C80_partial : forall w fs v, sorts_tables (w_sort w) ->
  exists text, run w fs Init v = ([(given v "output", text)], Done) /\
  forall fs' name, octopus_name name -> fs' name = Some text ->
  exists s s', load_file w fs' name = Loaded s /\ valid_schema s /\
    load_file w (fun _ => Some documented_init) name = Loaded s' /\ without_relationships s = s'.
Proof. exact init_runs. Qed.
Print Assumptions C80_partial.

(** ... but not the same text, nor exactly the same schema... *)
Theorem C80_text_refuted : forall w fs v path text, sorts_tables (w_sort w) -> run w fs Init v = ([(path, text)], Done) ->
  text <> documented_init /\ exists s s', load_file w (fun _ => Some text) "db.json" = Loaded s /\
    load_file w (fun _ => Some documented_init) "db.json" = Loaded s' /\ s <> s'.
Proof. exact init_differs. Qed.
Print Assumptions C80_text_refuted.

(** ... and the file has no name if none is given, where db.json is documented. *)
Theorem C80_default_refuted : forall w fs v, sorts_tables (w_sort w) -> v "output" = None ->
  documented_output = "db.json" /\ exists text, run w fs Init v = ([("", text)], Done).
Proof. exact (fun w fs v S N => conj eq_refl (init_no_default w fs v S N)). Qed.
Print Assumptions C80_default_refuted.

Example C80_case : sorts_tables (w_sort sample_world) /\ octopus_name "user.json" /\
  map fst (fst (run sample_world (fun _ => None) Init (option_values [("output", "user.json")]))) = ["user.json"].
Proof. split; [exact sample_sorts|]. split; [exact (json_name "user")|]. vm_compute. reflexivity. Qed.

(** C81. The files written by the import commands load as valid schemas. *)
Theorem C81_imports_load : forall w fs fs' c v path text,
  sorts_tables (w_sort w) -> (forall l, Permutation (w_sort_v1 w l) l) ->
  import_command c -> run w fs c v = ([(path, text)], Done) -> octopus_name path -> fs' path = Some text ->
  exists s, load_file w fs' path = Loaded s /\ valid_schema s.
Proof. exact import_loads. Qed.
Print Assumptions C81_imports_load.

Example C81_case : (forall l, Permutation (w_sort_v1 sample_world l) l) /\
  (exists text, run sample_world (fun _ => Some "CREATE TABLE T(A INT);") ImportMysql (option_values [("input", "a.sql"); ("output", "a.json")])
    = ([("a.json", text)], Done)) /\
  (exists text, run sample_world (fun _ => Some star_text) ImportStaruml (option_values [("input", "a.mdj"); ("output", "a.json")])
    = ([("a.json", text)], Done)) /\
  (exists text, run sample_world (fun _ => Some "workbook") ImportXlsx (option_values [("input", "a.xlsx"); ("output", "a.json")])
    = ([("a.json", text)], Done)) /\
  (exists text, run sample_world (fun _ => Some v1_text) ImportOjson (option_values [("input", "a.ojson"); ("output", "a.json")])
    = ([("a.json", text)], Done)).
Proof. exact imports_case. Qed.
