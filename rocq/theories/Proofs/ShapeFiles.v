(** Files whose values fit, for schema files, files of version 1 and StarUML projects *)
From Coq Require Import String Ascii List NArith Bool Arith Lia.
From Verif.Model Require Import GoString Util Octopus Common Json JsonText Ojson OjsonText Staruml StarumlText Cli.
From Verif.Spec Require Import Text OctopusSpec JsonSpec JsonGrammar CliSpec ShapeSpec.
From Verif.Proofs Require Import ListLemmas StringLemmas ServerProofs CommonProofs CliLoad JsonGrammarRead StabilityProofs StarDocProofs Shapes.
Import ListNotations.
Local Open Scope string_scope.

Ltac struct_names := match goal with |- context [kind_of ?X _] => let x := eval vm_compute in X in change X with x end.
Ltac each_field tac :=
  struct_names; unfold kind_of; cbn [find fst];
  repeat match goal with |- context [key_is ?f ?n] => destruct (key_is f n); [cbn [option_map snd]; rewrite ?map_some; solve [tac]|] end;
  cbn [option_map]; split; [trivial|discriminate].
Ltac leaf := first [apply fits_text_iff | apply fits_flag_iff | apply fits_small_iff
  | apply fits_list_iff; intros; apply fits_elem_iff].
Ltac distinct_fields := apply distinctb_iff; vm_compute; reflexivity.

(** ** Schema files *)
Section Octopus.
Variable float : string -> bool.
Local Notation ok := (fits octopus_structs float).
Lemma oct_ref : forall j, dec_ref j <> None <-> ok (Pointer "Reference") j.
Proof.
  apply pointer_iff. intros j N. apply struct_iff; [exact N|distinct_fields|].
  intros l acc name v _ _. unfold ref_member. each_field leaf.
Qed.
Lemma oct_column : forall j, j <> JNull -> (dec_column j <> None <-> ok (Pointer "Column") j).
Proof.
  intros j N. apply struct_iff; [exact N|distinct_fields|].
  intros l acc name v _ _. destruct acc. unfold col_member. each_field ltac:(first [leaf|apply oct_ref]).
Qed.
Lemma oct_index : forall j, j <> JNull -> (dec_index j <> None <-> ok (Pointer "Index") j).
Proof.
  intros j N. apply struct_iff; [exact N|distinct_fields|].
  intros l acc name v _ _. unfold idx_member. each_field leaf.
Qed.
Lemma key_other : forall a b n, key_is a n = true -> to_lower a <> to_lower b -> key_is b n = false.
Proof. unfold key_is. intros a b n H D. apply String.eqb_eq in H. apply String.eqb_neq. congruence. Qed.
Lemma oct_table : forall j, j <> JNull ->
  (dec_table (map_member "indices" (drop_nulls same) (map_member "columns" (drop_nulls same) j)) <> None <-> ok (Pointer "Table") j).
Proof.
  intros j N. unfold dec_table. rewrite !changed_obj. apply struct_iff; [exact N|distinct_fields|].
  intros l acc name v _ _. destruct acc. struct_names. unfold changed, tbl_member, kind_of. cbn [find fst].
  destruct (key_is "name" name) eqn:K1.
  { rewrite (key_other _ "columns" _ K1), (key_other _ "indices" _ K1) by discriminate. cbn [option_map snd]. rewrite map_some. leaf. }
  destruct (key_is "columns" name) eqn:K2.
  { rewrite (key_other _ "indices" _ K2) by discriminate. cbn [option_map snd]. rewrite map_some.
    apply drop_iff. intros x X. exact (oct_column x X). }
  destruct (key_is "desc" name) eqn:K3.
  { rewrite (key_other _ "indices" _ K3) by discriminate. cbn [option_map snd]. rewrite map_some. leaf. }
  destruct (key_is "group" name) eqn:K4.
  { rewrite (key_other _ "indices" _ K4) by discriminate. cbn [option_map snd]. rewrite map_some. leaf. }
  destruct (key_is "className" name) eqn:K5.
  { rewrite (key_other _ "indices" _ K5) by discriminate. cbn [option_map snd]. rewrite map_some. leaf. }
  destruct (key_is "indices" name) eqn:K6.
  { cbn [option_map snd]. rewrite map_some. apply drop_iff. intros x X. exact (oct_index x X). }
  cbn [option_map]. split; [trivial|discriminate].
Qed.
Lemma oct_schema : forall j, from_json (without_nulls j) <> None <-> ok (Pointer "Schema") j.
Proof.
  intros j. assert (D : j = JNull \/ j <> JNull) by (destruct j; auto; right; discriminate). destruct D as [->|N].
  { split; [constructor|discriminate]. }
  assert (E : from_json (without_nulls j) = dec_obj sch_member (mkSchema "" "" "" []) (without_nulls j)) by (destruct j; try reflexivity; contradiction).
  rewrite E. unfold without_nulls. rewrite changed_obj. apply struct_iff; [exact N|distinct_fields|].
  intros l acc name v _ _. destruct acc. struct_names. unfold changed, sch_member, kind_of. cbn [find fst].
  destruct (key_is "author" name) eqn:K1.
  { rewrite (key_other _ "tables" _ K1) by discriminate. cbn [option_map snd]. rewrite map_some. leaf. }
  destruct (key_is "name" name) eqn:K2.
  { rewrite (key_other _ "tables" _ K2) by discriminate. cbn [option_map snd]. rewrite map_some. leaf. }
  destruct (key_is "version" name) eqn:K3.
  { rewrite (key_other _ "tables" _ K3) by discriminate. cbn [option_map snd]. rewrite map_some. leaf. }
  destruct (key_is "tables" name) eqn:K4.
  { cbn [option_map snd]. rewrite map_some. apply drop_iff. intros x X. exact (oct_table x X). }
  cbn [option_map]. split; [trivial|discriminate].
Qed.
End Octopus.

(** ** Files of version 1 *)
Section V1.
Variable float : string -> bool.
Local Notation ok := (fits v1_structs float).
Lemma v1_ref : forall j, v1_dec_ref j <> None <-> ok (Pointer "Reference") j.
Proof.
  apply pointer_iff. intros j N. apply struct_iff; [exact N|distinct_fields|].
  intros l acc name v _ _. unfold v1_ref_member. each_field leaf.
Qed.
Lemma v1_column : forall j, j <> JNull -> (v1_dec_column j <> None <-> ok (Pointer "Column") j).
Proof.
  intros j N. apply struct_iff; [exact N|distinct_fields|].
  intros l acc name v _ _. destruct acc. unfold v1_col_member. each_field ltac:(first [leaf|apply v1_ref]).
Qed.
(** "indices" has no meaning in version 1 *)
Lemma v1_table : forall j, j <> JNull ->
  (v1_dec_table (map_member "indices" (drop_nulls same) (map_member "columns" (drop_nulls same) j)) <> None <-> ok (Pointer "Table") j).
Proof.
  intros j N. unfold v1_dec_table. rewrite !changed_obj. apply struct_iff; [exact N|distinct_fields|].
  intros l acc name v _ _. destruct acc. struct_names. unfold changed, v1_tbl_member, kind_of. cbn [find fst].
  destruct (key_is "name" name) eqn:K1.
  { rewrite (key_other _ "columns" _ K1), (key_other _ "indices" _ K1) by discriminate. cbn [option_map snd]. rewrite map_some. leaf. }
  destruct (key_is "columns" name) eqn:K2.
  { rewrite (key_other _ "indices" _ K2) by discriminate. cbn [option_map snd]. rewrite map_some.
    apply drop_iff. intros x X. exact (v1_column x X). }
  destruct (key_is "desc" name) eqn:K3.
  { rewrite (key_other _ "indices" _ K3) by discriminate. cbn [option_map snd]. rewrite map_some. leaf. }
  destruct (key_is "group" name) eqn:K4.
  { rewrite (key_other _ "indices" _ K4) by discriminate. cbn [option_map snd]. rewrite map_some. leaf. }
  destruct (key_is "className" name) eqn:K5.
  { rewrite (key_other _ "indices" _ K5) by discriminate. cbn [option_map snd]. rewrite map_some. leaf. }
  cbn [option_map]. split; [trivial|discriminate].
Qed.
Lemma v1_schema_iff : forall j, v1_from_json (without_nulls j) <> None <-> ok (Pointer "Schema") j.
Proof.
  intros j. assert (D : j = JNull \/ j <> JNull) by (destruct j; auto; right; discriminate). destruct D as [->|N].
  { split; [constructor|discriminate]. }
  assert (E : v1_from_json (without_nulls j) = dec_obj v1_sch_member (mkV1Schema "" "" "" []) (without_nulls j)) by (destruct j; try reflexivity; contradiction).
  rewrite E. unfold without_nulls. rewrite changed_obj. apply struct_iff; [exact N|distinct_fields|].
  intros l acc name v _ _. destruct acc. struct_names. unfold changed, v1_sch_member, kind_of. cbn [find fst].
  destruct (key_is "author" name) eqn:K1.
  { rewrite (key_other _ "tables" _ K1) by discriminate. cbn [option_map snd]. rewrite map_some. leaf. }
  destruct (key_is "name" name) eqn:K2.
  { rewrite (key_other _ "tables" _ K2) by discriminate. cbn [option_map snd]. rewrite map_some. leaf. }
  destruct (key_is "version" name) eqn:K3.
  { rewrite (key_other _ "tables" _ K3) by discriminate. cbn [option_map snd]. rewrite map_some. leaf. }
  destruct (key_is "tables" name) eqn:K4.
  { cbn [option_map snd]. rewrite map_some. apply drop_iff. intros x X. exact (v1_table x X). }
  cbn [option_map]. split; [trivial|discriminate].
Qed.
End V1.

(** ** StarUML projects *)
Fixpoint weight (j : json) : nat :=
  match j with
  | JArr l => S (fold_right (fun x n => weight x + n) 0 l)
  | JObj l => S (fold_right (fun kv n => weight (snd kv) + n) 0 l)
  | _ => 1
  end.
Lemma weight_element : forall l x, In x l -> weight x < weight (JArr l).
Proof. intros l x. induction l as [|y l IH]; [intros []|]. cbn in *. intros [<-|I]; [lia|]. specialize (IH I). lia. Qed.
Lemma weight_member : forall l k x, In (k, x) l -> weight x < weight (JObj l).
Proof. intros l k x. induction l as [|[k' y] l IH]; [intros []|]. cbn in *. intros [[= <- <-]|I]; [lia|]. specialize (IH I). lia. Qed.

Section Star.
Variable float : string -> bool.
Local Notation ok := (fits star_structs float).
Lemma numbers_iff : forall n j, weight j < n -> (numbers_ok float j = true <-> forall lit, part (JNum lit) j -> float lit = true).
Proof.
  induction n as [|n IH]; intros j L; [lia|]. destruct j as [|b|lit|s|l|l]; cbn [numbers_ok].
  - split; [|reflexivity]. intros _ lit P. inversion P.
  - split; [|reflexivity]. intros _ lit P. inversion P.
  - split; [intros F lit' P; inversion P; subst; exact F|]. intros H. apply H. constructor.
  - split; [|reflexivity]. intros _ lit P. inversion P.
  - rewrite forallb_forall. split.
    + intros H lit P. inversion P as [|l' y I Q|]; subst. pose proof (weight_element _ _ I). apply (proj1 (IH y ltac:(lia)) (H y I) lit Q).
    + intros H x I. pose proof (weight_element _ _ I). apply (IH x ltac:(lia)). intros lit Q. apply H. now apply (part_element _ l x).
  - rewrite forallb_forall. split.
    + intros H lit P. inversion P as [| |l' k y I Q]; subst. pose proof (weight_member _ _ _ I). exact (proj1 (IH y ltac:(lia)) (H _ I) lit Q).
    + intros H [k x] I. pose proof (weight_member _ _ _ I). apply (IH x ltac:(lia)). intros lit Q. apply H. now apply (part_member _ l k x).
Qed.
Lemma star_ref_iff : forall j, st_dec_ref j <> None <-> ok (Pointer "Ref") j.
Proof.
  apply pointer_iff. intros j N. apply struct_iff; [exact N|distinct_fields|].
  intros l acc name v _ _. unfold st_ref_member. each_field leaf.
Qed.
Lemma any_iff : forall A (x : A) j, (if numbers_ok float j then Some x else None) <> None <-> ok Anything j.
Proof.
  intros A x j. pose proof (numbers_iff (S (weight j)) j ltac:(lia)) as H. destruct (numbers_ok float j).
  - split; [|discriminate]. intros _. apply fits_any. now apply H.
  - split; [intros X; exfalso; now apply X|]. intros X. exfalso. assert (F : false = true); [|discriminate F].
    apply H. inversion X as [k| | | |j' G| |]; subst; [intros lit P; inversion P|exact G].
Qed.
Lemma star_iff : forall n j, weight j < n -> (st_dec_element float j <> None <-> ok (Pointer "Element") j).
Proof.
  induction n as [|n IH]; intros j L; [lia|]. destruct j as [|b|lit|s|l|l]; try (split; [intros X; exfalso; now apply X|intros X; inversion X; fail]).
  { split; [constructor|discriminate]. }
  rewrite st_dec_object, map_some. change (dec_members (st_member float) st_zero l) with (dec_obj (st_member float) st_zero (JObj l)).
  apply struct_iff; [discriminate|distinct_fields|].
  intros l' acc name v [= <-] I. pose proof (weight_member _ _ _ I) as W.
  assert (E : dec_arr (st_dec_element float) v <> None <-> ok (ListOf (Pointer "Element")) v).
  { apply fits_list_iff. intros l' x -> Ix. apply IH. pose proof (weight_element _ _ Ix). lia. }
  destruct acc as [ty id pa na le tp pk uq nu dc rt ow co]. unfold st_member. struct_names. unfold kind_of. cbn [find fst].
  destruct (key_is "_type" name); [cbn [option_map snd]; rewrite map_some; leaf|].
  destruct (key_is "_id" name); [cbn [option_map snd]; rewrite map_some; leaf|].
  destruct (key_is "_parent" name); [cbn [option_map snd]; rewrite map_some; apply star_ref_iff|].
  destruct (key_is "name" name); [cbn [option_map snd]; rewrite map_some; leaf|].
  destruct (key_is "length" name); [cbn [option_map snd]; apply any_iff|].
  destruct (key_is "type" name); [cbn [option_map snd]; rewrite map_some; leaf|].
  destruct (key_is "primaryKey" name); [cbn [option_map snd]; rewrite map_some; leaf|].
  destruct (key_is "unique" name); [cbn [option_map snd]; rewrite map_some; leaf|].
  destruct (key_is "nullable" name); [cbn [option_map snd]; rewrite map_some; leaf|].
  destruct (key_is "documentation" name); [cbn [option_map snd]; rewrite map_some; leaf|].
  destruct (key_is "head" name) eqn:K1.
  { rewrite (key_other _ "referenceTo" _ K1) by discriminate. cbn [option_map snd orb]. rewrite map_some. apply star_ref_iff. }
  destruct (key_is "end1" name) eqn:K2.
  { rewrite (key_other _ "referenceTo" _ K2) by discriminate. cbn [option_map snd orb]. rewrite map_some. apply star_ref_iff. }
  destruct (key_is "end2" name) eqn:K3.
  { rewrite (key_other _ "referenceTo" _ K3) by discriminate. cbn [option_map snd orb]. rewrite map_some. apply star_ref_iff. }
  destruct (key_is "reference" name) eqn:K4.
  { rewrite (key_other _ "referenceTo" _ K4) by discriminate. cbn [option_map snd orb]. rewrite map_some. apply star_ref_iff. }
  destruct (key_is "referenceTo" name); [cbn [option_map snd orb]; rewrite map_some; apply star_ref_iff|].
  cbn [orb].
  destruct (key_is "ownedElements" name); [cbn [option_map snd]; rewrite map_some; exact E|].
  destruct (key_is "columns" name); [cbn [option_map snd]; rewrite map_some; exact E|].
  cbn [option_map]. split; [trivial|discriminate].
Qed.
End Star.

(** ** Commands *)
Lemma load_iff : forall w fs name, load_file w fs name <> LoadFailed <->
  octopus_name name /\ exists text j, fs name = Some text /\ json_text text j /\ within 10000 j /\
    fits octopus_structs (w_float_ok w) (Pointer "Schema") j.
Proof.
  intros w fs name. unfold load_file. split.
  - destruct (load_schema_accepts name) eqn:A; [|intros X; exfalso; now apply X].
    destruct (fs name) as [text|]; [|intros X; exfalso; now apply X].
    destruct (read_text text) as [j|] eqn:R; [|intros X; exfalso; now apply X].
    pose proof (oct_schema (w_float_ok w) j) as S. destruct (from_json (without_nulls j)) as [s|]; [|intros X; exfalso; now apply X].
    intros _. split; [now apply load_schema_accepts_iff|]. exists text, j. apply read_iff in R as [R1 R2].
    split; [reflexivity|]. split; [exact R1|]. split; [exact R2|]. apply S. discriminate.
  - intros (O & text & j & F & J & W & X). rewrite (accepts_octopus _ O), F.
    rewrite (proj2 (read_iff text j) (conj J W)). apply oct_schema in X.
    destruct (from_json (without_nulls j)) as [s|]; [|exfalso; now apply X].
    destruct (has_null_table j); [discriminate|]. destruct (has_null_column j); [destruct (existsb _ _); discriminate|].
    destruct (has_null_index j); discriminate.
Qed.

Lemma read_unfit : forall decl float root text j, unfit decl float root text -> read_text text = Some j -> ~ fits decl float (Pointer root) j.
Proof. intros decl float root text j U R. apply read_iff in R as [R1 R2]. now apply U. Qed.
Lemma v1_unfit : forall w fs v text, fs (given v "input") = Some text -> unfit v1_structs (w_float_ok w) "Schema" text ->
  run w fs ImportOjson v = ([], Failed).
Proof.
  intros w fs v text F U. unfold run. destruct (required_given ImportOjson v); [|reflexivity].
  unfold action, import_ojson. change (flag_string ImportOjson v "input") with (given v "input"). rewrite F.
  destruct (read_text text) as [j|] eqn:R; [|reflexivity].
  pose proof (v1_schema_iff (w_float_ok w) j) as S. destruct (v1_from_json (without_nulls j)); [|reflexivity].
  exfalso. apply (read_unfit _ _ _ _ _ U R). apply S. discriminate.
Qed.
Lemma star_unfit : forall w fs v text, fs (given v "input") = Some text -> unfit star_structs (w_float_ok w) "Element" text ->
  run w fs ImportStaruml v = ([], Failed).
Proof.
  intros w fs v text F U. unfold run. destruct (required_given ImportStaruml v); [|reflexivity].
  unfold action, import_staruml_file, st_from_text. change (flag_string ImportStaruml v "input") with (given v "input"). rewrite F.
  destruct (read_text text) as [j|] eqn:R; [|reflexivity].
  pose proof (star_iff (w_float_ok w) (S (weight j)) j ltac:(lia)) as S. destruct (st_dec_element (w_float_ok w) j); [|reflexivity].
  exfalso. apply (read_unfit _ _ _ _ _ U R). apply S. discriminate.
Qed.

Lemma load_unfit : forall w fs name text, fs name = Some text -> unfit octopus_structs (w_float_ok w) "Schema" text ->
  load_file w fs name = LoadFailed.
Proof.
  intros w fs name text F U. pose proof (load_iff w fs name) as L. destruct (load_file w fs name); try reflexivity;
    (destruct (proj1 L ltac:(discriminate)) as (_ & t & j & F' & J & W & X); rewrite F in F'; injection F' as <-; destruct (U j J W X)).
Qed.
Lemma schema_unfit : forall w fs c v text, In c schema_commands -> fs (given v "input") = Some text ->
  unfit octopus_structs (w_float_ok w) "Schema" text -> run w fs c v = ([], Failed).
Proof.
  intros w fs c v text C F U. pose proof (load_unfit w fs _ text F U) as L.
  unfold run. destruct (required_given c v); [|reflexivity]. unfold schema_commands in C. cbn [In] in C.
  repeat (destruct C as [<-|C]; [unfold action, export_dbml_file, export_quickdbd_file, export_mysql_file, export_xlsx_file, generate_gorm,
    generate_graphql, generate_kt, generate_liquibase, generate_plantuml, generate_pb, generate_sqlalchemy, with_schema;
    match goal with |- context [flag_string ?c v "input"] => change (flag_string c v "input") with (given v "input") end;
    rewrite L; reflexivity|]). destruct C.
Qed.
Lemma diff_unfit : forall w fs c v text, In c [DiffFlyway; DiffLiquibase; DiffMd] -> fs (given v "from") = Some text ->
  unfit octopus_structs (w_float_ok w) "Schema" text -> run w fs c v = ([], Failed).
Proof.
  intros w fs c v text C F U. pose proof (load_unfit w fs _ text F U) as L.
  unfold run. destruct (required_given c v); [|reflexivity]. cbn [In] in C.
  repeat (destruct C as [<-|C]; [unfold action, diff_flyway, diff_liquibase, diff_md, with_schemas, with_schema;
    match goal with |- context [flag_string ?c v "from"] => change (flag_string c v "from") with (given v "from") end;
    rewrite L; reflexivity|]). destruct C.
Qed.

(** ** Cases *)
Lemma unfit_octopus : forall float text, match read_text text with Some j => from_json (without_nulls j) = None | None => True end ->
  unfit octopus_structs float "Schema" text.
Proof.
  intros float text H j J W X. rewrite (proj2 (read_iff text j) (conj J W)) in H. now apply (proj2 (oct_schema float j) X).
Qed.
Lemma unfit_v1 : forall float text, match read_text text with Some j => v1_from_json (without_nulls j) = None | None => True end ->
  unfit v1_structs float "Schema" text.
Proof.
  intros float text H j J W X. rewrite (proj2 (read_iff text j) (conj J W)) in H. now apply (proj2 (v1_schema_iff float j) X).
Qed.
Lemma unfit_star : forall float text, match read_text text with Some j => st_dec_element float j = None | None => True end ->
  unfit star_structs float "Element" text.
Proof.
  intros float text H j J W X. rewrite (proj2 (read_iff text j) (conj J W)) in H.
  now apply (proj2 (star_iff float (S (weight j)) j ltac:(lia)) X).
Qed.
Definition wrong_schemas : list string :=
  ["[]"; "1"; "{""tables"": {}}"; "{""name"": 1}"; "{""TABLES"": [[]]}"; "{""tables"": [{""desc"": true}]}";
   "{""tables"": [{""columns"": [{""size"": 65536}]}]}"; "{""tables"": [{""columns"": [{""size"": -1}]}]}";
   "{""tables"": [{""columns"": [{""size"": 1.0}]}]}"; "{""tables"": [{""columns"": [{""size"": 1e1}]}]}";
   "{""tables"": [{""columns"": [{""size"": ""10""}]}]}"; "{""tables"": [{""columns"": [{""pk"": 1}]}]}";
   "{""tables"": [{""columns"": [{""pk"": ""true""}]}]}"; "{""tables"": [{""columns"": [{""values"": [""a"", 1]}]}]}";
   "{""tables"": [{""columns"": [{""values"": ""a""}]}]}"; "{""tables"": [{""columns"": [{""default"": 0}]}]}";
   "{""tables"": [{""columns"": [{""ref"": []}]}]}"; "{""tables"": [{""columns"": [{""ref"": {""table"": 1}}]}]}";
   "{""tables"": [{""indices"": [{""columns"": ""a""}]}]}"; "{""tables"": [{""name"": 1, ""name"": ""a""}]}"; "{""tables"": [}"].
Lemma wrong_unfit : forall float text, In text wrong_schemas -> unfit octopus_structs float "Schema" text.
Proof.
  intros float text T. apply unfit_octopus. unfold wrong_schemas in T. cbn [In] in T.
  repeat (destruct T as [<-|T]; [vm_compute; try reflexivity; exact I|]). destruct T.
Qed.
Definition odd_schema : string :=
  "{""Tables"": [null, {""NAME"": null, ""columns"": [{""size"": 65535, ""Pk"": true, ""values"": [null], ""ref"": null, ""other"": [{}]}, null]}], ""x"": 1}".
Definition odd_value : json :=
  JObj [("Tables", JArr [JNull; JObj [("NAME", JNull); ("columns", JArr [JObj [("size", JNum "65535"); ("Pk", JBool true);
    ("values", JArr [JNull]); ("ref", JNull); ("other", JArr [JObj []])]; JNull])]]); ("x", JNum "1")].
Lemma odd_fits : forall float, json_text odd_schema odd_value /\ within 10000 odd_value /\ fits octopus_structs float (Pointer "Schema") odd_value.
Proof.
  intros float. assert (R : read_text odd_schema = Some odd_value) by (vm_compute; reflexivity). apply read_iff in R as [R1 R2].
  split; [exact R1|]. split; [exact R2|]. apply oct_schema. vm_compute. discriminate.
Qed.
Lemma wrong_others : forall float,
  (forall text, In text ["[]"; "{""tables"": [{""columns"": [{""description"": 1}]}]}"; "{""tables"": [{""columns"": [{""unique"": 1}]}]}"] ->
    unfit v1_structs float "Schema" text) /\
  (forall text, In text ["[]"; "{""head"": 1}"; "{""reference"": ""x""}"; "{""ownedElements"": {}}"; "{""ownedElements"": [{""columns"": [{""nullable"": 0}]}]}"] ->
    unfit star_structs float "Element" text) /\
  (float "1e999" = false -> unfit star_structs float "Element" "{""length"": [1e999]}").
Proof.
  intros float. split; [|split].
  - intros text T. apply unfit_v1. cbn [In] in T. repeat (destruct T as [<-|T]; [vm_compute; reflexivity|]). destruct T.
  - intros text T. apply unfit_star. cbn [In] in T. repeat (destruct T as [<-|T]; [vm_compute; reflexivity|]). destruct T.
  - intros E. apply unfit_star.
    assert (R : read_text "{""length"": [1e999]}" = Some (JObj [("length", JArr [JNum "1e999"])])) by (vm_compute; reflexivity).
    rewrite R. rewrite st_dec_object. cbn [dec_members]. unfold st_member, st_zero.
    change (numbers_ok float (JArr [JNum "1e999"])) with (float "1e999" && true). rewrite E. vm_compute. reflexivity.
Qed.
