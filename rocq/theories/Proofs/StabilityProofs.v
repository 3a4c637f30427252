(** Lemmas for C90-C92 *)
From Coq Require Import String Ascii List NArith Bool Lia Sorting.Permutation Sorting.Sorted.
From Verif.Model Require Import GoString Util Octopus Common Json JsonText DiffCore Diff DiffWriters Liquibase Cli.
From Verif.Spec Require Import Text OctopusSpec JsonSpec CliSpec FormatSpec DiffSpec OptionsSpec StabilitySpec.
From Verif.Proofs Require Import StringLemmas TypeProofs OctopusProofs JsonProofs JsonTextProofs FormatProofs CliLoad CliCases CliFormat
  ReadUtf8 V1Proofs DiffProofs DiffFacts LiquibaseProofs CliOptions.
Import ListNotations.
Local Open Scope string_scope.

(** ** C90 *)

Lemma sort_same : forall sortf s t, sorts_tables sortf -> same_but_order s t -> distinct_table_keys s ->
  sortf (s_tables s) = sortf (s_tables t).
Proof.
  intros sortf s t Hs (P & _) D. destruct (Hs (s_tables s)) as [P1 S1], (Hs (s_tables t)) as [P2 S2].
  apply sorted_perm_unique; [|now apply sorted_strong|now apply sorted_strong|].
  - rewrite P1, P2. exact P.
  - eapply Permutation_NoDup; [apply Permutation_map; symmetry; exact P1|exact D].
Qed.

Lemma decoded_same : forall sortf s t, sorts_tables sortf -> same_but_order s t -> distinct_table_keys s ->
  load_schema_decoded sortf s = load_schema_decoded sortf t.
Proof.
  intros sortf s t Hs H D. unfold load_schema_decoded, normalize. rewrite (sort_same sortf s t Hs H D).
  destruct H as (_ & A & N & V). destruct (normalize_tables _) as [ts e]. cbn [fst].
  destruct s, t; unfold with_tables; cbn in *. congruence.
Qed.

Lemma describes_loads : forall w fs name text s, describes text s -> fs name = Some text ->
  load_file w fs name = if load_schema_accepts name then Loaded (load_schema_decoded (w_sort w) s) else LoadFailed.
Proof.
  intros w fs name text s (j & R & D & Fit) F. unfold load_file. destruct (load_schema_accepts name); [|reflexivity].
  rewrite F, R. destruct (full_kept _ (doc_full _ _ _ D)) as (E1 & E2 & E3 & E4).
  now rewrite E1, (from_document _ _ Fit D), E2, E3, E4.
Qed.

Lemma content_loads : forall w fs1 fs2 name, sorts_tables (w_sort w) -> same_content (fs1 name) (fs2 name) ->
  load_file w fs1 name = load_file w fs2 name.
Proof.
  intros w fs1 fs2 name Hs [E|(x & y & s & t & X & Y & DX & DY & S & D)].
  - unfold load_file. now rewrite E.
  - rewrite (describes_loads _ _ _ _ _ DX X), (describes_loads _ _ _ _ _ DY Y).
    now rewrite (decoded_same _ _ _ Hs S D).
Qed.

Lemma run_loads : forall w fs1 fs2 c v, reads_schemas c -> (forall name, load_file w fs1 name = load_file w fs2 name) ->
  run w fs1 c v = run w fs2 c v.
Proof.
  intros w fs1 fs2 c v Rd H. unfold run. destruct (required_given c v); [|reflexivity].
  assert (W : forall name k, with_schema w fs1 name k = with_schema w fs2 name k).
  { intros name k. unfold with_schema. now rewrite H. }
  assert (W2 : forall k, with_schemas w fs1 c v k = with_schemas w fs2 c v k).
  { intros k. unfold with_schemas. rewrite W. unfold with_schema at 1 3. destruct (load_file w fs2 _); try reflexivity. apply W. }
  destruct c; unfold action; try reflexivity; try (apply W); try (apply W2); exfalso; apply Rd; cbn; intuition.
Qed.

Lemma content_runs : forall w fs1 fs2 c v, sorts_tables (w_sort w) -> reads_schemas c ->
  (forall name, same_content (fs1 name) (fs2 name)) -> run w fs1 c v = run w fs2 c v.
Proof. intros w fs1 fs2 c v Hs Rd H. apply run_loads; [exact Rd|]. intros name. apply content_loads; auto. Qed.

(** ** C91 *)

Lemma u16_kept : forall old j n, (old < 65536)%N -> dec_u16 old j = Some n -> (n < 65536)%N.
Proof.
  intros old j n L E. destruct j; try discriminate; cbn [dec_u16] in E; [injection E as <-; exact L|].
  destruct (digits_to_N _) as [m|]; [|discriminate]. destruct (N.ltb m 65536) eqn:B; [|discriminate].
  injection E as <-. now apply N.ltb_lt.
Qed.
Definition col_fits (c : column) : Prop := (c_size c < 65536)%N /\ (c_scale c < 65536)%N.
Lemma column_fits : forall j c, json_utf8 j -> dec_column j = Some c -> col_fits c.
Proof.
  intros j c U. unfold dec_column. apply (dec_obj_keep _ col_fits); [| |exact U].
  - intros [n t d sz sc nn pk uq ai df ou vs rf] k y c' Uy. unfold col_fits. cbn [c_size c_scale]. intros (A & B). unfold col_member.
    decoded; cbn [c_size c_scale]; split; try assumption; refine (u16_kept _ _ _ _ D); assumption.
  - split; cbn; lia.
Qed.
Lemma table_fits : forall j t, json_utf8 j -> dec_table j = Some t -> Forall col_fits (t_cols t).
Proof.
  intros j t U. unfold dec_table. apply (dec_obj_keep _ (fun t => Forall col_fits (t_cols t))); [| |exact U].
  - intros [n cs d g cl ix] k y t' Uy. cbn [t_cols]. intros A. unfold tbl_member.
    decoded; cbn [t_cols]; try assumption. exact (dec_arr_keep _ _ _ column_fits _ _ Uy D).
  - constructor.
Qed.
Lemma decoded_fits : forall j s, json_utf8 j -> from_json j = Some s -> Forall (fun t => Forall col_fits (t_cols t)) (s_tables s).
Proof.
  intros j s U E.
  assert (G : dec_obj sch_member (mkSchema "" "" "" []) j = Some s -> Forall (fun t => Forall col_fits (t_cols t)) (s_tables s)).
  { apply (dec_obj_keep _ (fun s => Forall (fun t => Forall col_fits (t_cols t)) (s_tables s))); [|constructor|exact U].
    intros [a n v ts] k y s' Uy. cbn [s_tables]. intros A. unfold sch_member.
    decoded; cbn [s_tables]; try assumption. exact (dec_arr_keep _ _ _ table_fits _ _ Uy D). }
  unfold from_json in E. destruct j; try exact (G E). injection E as <-. constructor.
Qed.
Lemma validate_sizes : forall b c, c_size (fst (validate b c)) = c_size c /\ c_scale (fst (validate b c)) = c_scale c.
Proof.
  intros b c. unfold validate. repeat match goal with |- context [if ?b then _ else _] => destruct b end; split; reflexivity.
Qed.
Lemma normalized_cols_fit : forall cs, Forall col_fits cs -> Forall col_fits (fst (normalize_cols cs)).
Proof.
  induction 1 as [|c cs U F IH]; [constructor|]. cbn [normalize_cols].
  destruct (validate_sizes true (normalize_type c)) as [A B]. 
  destruct (validate true (normalize_type c)) as [c' [e|]]; cbn [fst] in *.
  - constructor; [|exact F]. unfold col_fits. rewrite A, B. exact U.
  - destruct (normalize_cols cs) as [r e]; cbn [fst] in *. constructor; [|exact IH]. unfold col_fits. rewrite A, B. exact U.
Qed.
Lemma normalized_tables_fit : forall ts, Forall (fun t => Forall col_fits (t_cols t)) ts ->
  Forall (fun t => Forall col_fits (t_cols t)) (fst (normalize_tables ts)).
Proof.
  induction 1 as [|t ts U F IH]; [constructor|]. cbn [normalize_tables]. apply normalized_cols_fit in U.
  destruct (normalize_cols (t_cols t)) as [cs [e|]]; cbn [fst] in *; [now constructor|].
  destruct (normalize_tables ts) as [r e]; cbn [fst] in *. now constructor.
Qed.
Lemma file_decoded : forall w fs name s, load_file w fs name = Loaded s ->
  exists j s0, json_utf8 j /\ from_json j = Some s0 /\ s = load_schema_decoded (w_sort w) s0.
Proof.
  intros w fs name s. unfold load_file. destruct (load_schema_accepts name); [|discriminate].
  destruct (fs name) as [text|]; [|discriminate]. destruct (read_text text) as [j|] eqn:R; [|discriminate].
  destruct (from_json (without_nulls j)) as [s0|] eqn:F; [|discriminate]. destruct (has_null_table j); [discriminate|].
  destruct (has_null_column j); [now destruct (existsb _ _)|]. destruct (has_null_index j); [discriminate|].
  intros E. injection E as <-. exists (without_nulls j), s0.
  split; [exact (without_nulls_utf8 _ (read_utf8 _ _ R))|]. split; [exact F|reflexivity].
Qed.
Lemma loaded_fits : forall w fs name s, sorts_tables (w_sort w) -> load_file w fs name = Loaded s -> fits_u16 s.
Proof.
  intros w fs name s Hs E. destruct (file_decoded _ _ _ _ E) as (j & s0 & U & F & ->).
  pose proof (decoded_fits _ _ U F) as A. unfold load_schema_decoded, normalize.
  assert (B : Forall (fun t => Forall col_fits (t_cols t)) (w_sort w (s_tables s0))).
  { rewrite Forall_forall in *. intros t T. apply A. exact (Permutation_in t (proj1 (Hs _)) T). }
  apply normalized_tables_fit in B. destruct (normalize_tables _) as [ts e]. cbn [fst] in *.
  intros c C. unfold columns_of in C. cbn [with_tables s_tables] in C. apply in_flat_map in C as (t & T & C).
  rewrite Forall_forall in B. specialize (B t T). rewrite Forall_forall in B. exact (B c C).
Qed.

(** an error is found again *)
Lemma validate_again : forall c, snd (validate true (normalize_type c)) <> None ->
  snd (validate true (normalize_type (fst (validate true (normalize_type c))))) <> None.
Proof.
  intros c H X. apply H. apply validate_error. apply validate_error in X.
  assert (E : c_name (fst (validate true (normalize_type c))) = c_name c /\
    c_type (fst (validate true (normalize_type c))) = norm (c_type c) /\
    c_values (fst (validate true (normalize_type c))) = c_values c).
  { unfold validate. repeat match goal with |- context [if ?b then _ else _] => destruct b end; repeat split. }
  destruct E as (E1 & E2 & E3). rewrite E1, E2, E3, norm_idem in X. exact X.
Qed.
Lemma cols_error : forall cs cs' e, normalize_cols cs = (cs', Some e) -> exists c, In c cs' /\ ~ repairable c.
Proof.
  induction cs as [|c cs IH]; intros cs' e H; [discriminate|]. cbn [normalize_cols] in H.
  pose proof (validate_again c) as A. destruct (validate true (normalize_type c)) as [c' [x|]] eqn:V; cbn [fst snd] in A.
  - injection H as <- <-. exists c'. split; [now left|]. intros R. apply repairable_iff in R. exact (A ltac:(discriminate) R).
  - destruct (normalize_cols cs) as [r y] eqn:N. injection H as <- ->. destruct (IH _ _ eq_refl) as (d & I & D).
    exists d. split; [now right|exact D].
Qed.
Lemma tables_error : forall ts ts' e, normalize_tables ts = (ts', Some e) -> exists c, In c (flat_map t_cols ts') /\ ~ repairable c.
Proof.
  induction ts as [|t ts IH]; intros ts' e H; [discriminate|]. cbn [normalize_tables] in H.
  destruct (normalize_cols (t_cols t)) as [cs [x|]] eqn:C.
  - injection H as <- <-. destruct (cols_error _ _ _ C) as (d & I & D). exists d. split; [|exact D].
    cbn [flat_map]. apply in_or_app. now left.
  - destruct (normalize_tables ts) as [r y] eqn:N. injection H as <- ->. destruct (IH _ _ eq_refl) as (d & I & D).
    exists d. split; [|exact D]. cbn [flat_map]. apply in_or_app. now right.
Qed.

Lemma valid_repairable : forall c, valid_column c -> repairable c.
Proof. intros c V. apply repairable_iff. now rewrite (validate_fixed c V). Qed.

Lemma loaded_good : forall w fs name s, sorts_tables (w_sort w) -> load_file w fs name = Loaded s ->
  (forall c, In c (columns_of s) -> repairable c) -> valid_schema s /\ StronglySorted table_le (s_tables s).
Proof.
  intros w fs name s Hs E R. destruct (file_decoded _ _ _ _ E) as (j & s0 & _ & _ & Es).
  unfold load_schema_decoded in Es. destruct (normalize (w_sort w) s0) as [s1 [e|]] eqn:N; cbn [fst] in Es; subst s1.
  - exfalso. unfold normalize in N. destruct (normalize_tables _) as [ts y] eqn:T. injection N as <- ->.
    destruct (tables_error _ _ _ T) as (c & C & B). exact (B (R c C)).
  - destruct (normalize_ok _ _ _ Hs N) as (_ & S & V & _). now split.
Qed.

Lemma loaded_saved : forall w fs name s, sorts_tables (w_sort w) -> load_file w fs name = Loaded s ->
  ((exists text, to_text (w_sort w) s = Some text) <-> valid_schema s).
Proof.
  intros w fs name s Hs E. rewrite (saved_iff _ s Hs). split.
  - intros R. exact (proj1 (loaded_good _ _ _ _ Hs E R)).
  - intros V c C. apply valid_repairable. exact (V c C).
Qed.

Lemma sorted_fixed : forall sortf s, sorts_tables sortf -> valid_schema s -> StronglySorted table_le (s_tables s) ->
  distinct_table_keys s -> normalize sortf s = (s, None).
Proof.
  intros sortf s Hs V S D. destruct (valid_normalize sortf s Hs V) as (s' & N & _). rewrite N. f_equal.
  unfold normalize in N. destruct (Hs (s_tables s)) as [P S'].
  assert (X : sortf (s_tables s) = s_tables s).
  { apply sorted_perm_unique; [exact P|now apply sorted_strong|exact S|].
    eapply Permutation_NoDup; [apply Permutation_map; symmetry; exact P|exact D]. }
  rewrite X in N. rewrite normalize_tables_fixed in N.
  - injection N as <-. destruct s; reflexivity.
  - rewrite Forall_forall. intros t Ht. rewrite Forall_forall. intros c Hc. apply V.
    unfold columns_of. apply in_flat_map. eauto.
Qed.

Lemma loaded_resaved : forall w fs name s text fs' name', sorts_tables (w_sort w) -> load_file w fs name = Loaded s ->
  to_text (w_sort w) s = Some text -> octopus_name name' -> fs' name' = Some text ->
  exists s', load_file w fs' name' = Loaded s' /\ same_but_order s s' /\
    (distinct_table_keys s -> s' = s /\ to_text (w_sort w) s' = Some text).
Proof.
  intros w fs name s text fs' name' Hs E T O F.
  assert (R : forall c, In c (columns_of s) -> repairable c) by (apply (saved_iff _ s Hs); eauto).
  destruct (loaded_good _ _ _ _ Hs E R) as [V S].
  pose proof (load_utf8 _ _ _ _ Hs E) as U. pose proof (loaded_fits _ _ _ _ Hs E) as Fit.
  destruct (text_roundtrip _ _ _ Hs Fit T) as (s1 & N & Rd & Fit1).
  rewrite clean_schema_utf8 in Rd by exact (normalized_utf8 _ _ _ Hs N U).
  pose proof (load_encoded w fs' name' text s1 (accepts_octopus _ O) F Rd Fit1) as L.
  destruct (valid_normalize _ _ Hs V) as (s1' & N' & P1 & A1 & B1 & C1 & V1). rewrite N in N'. injection N' as <-.
  destruct (valid_normalize _ _ Hs V1) as (s2 & N2 & P2 & A2 & B2 & C2 & V2).
  assert (Z : load_schema_decoded (w_sort w) s1 = s2) by (unfold load_schema_decoded; now rewrite N2). rewrite Z in L.
  exists s2. split; [exact L|]. split; [|].
  - unfold same_but_order. rewrite A2, B2, C2. repeat split; try congruence. etransitivity; [symmetry; exact P1|symmetry; exact P2].
  - intros D. assert (Q : s1 = s) by (pose proof (sorted_fixed _ _ Hs V S D) as Q; congruence). subst s1.
    assert (Q : s2 = s) by congruence. rewrite Q. split; [reflexivity|exact T].
Qed.

(** a schema that loads and cannot be saved *)
Definition unsaved_text : string := "{""tables"": [{""name"": ""t"", ""columns"": [{""name"": ""a"", ""type"": ""bool""}]}]}".
Definition unsaved_json : json :=
  JObj [("tables", JArr [JObj [("name", JStr "t"); ("columns", JArr [JObj [("name", JStr "a"); ("type", JStr "bool")]])]])].
Definition unsaved_schema : schema :=
  mkSchema "" "" "" [mkTable "t" [mkCol "a" "bool" "" 0 0 false false false false "" "" [] None] "" "" "" []].
Lemma unsaved : exists text, forall w fs name, sorts_tables (w_sort w) -> octopus_name name -> fs name = Some text ->
  exists s, load_file w fs name = Loaded s /\ to_text (w_sort w) s = None.
Proof.
  exists unsaved_text. intros w fs name Hs O F.
  assert (S1 : forall t, w_sort w [t] = [t]).
  { intros t. destruct (Hs [t]) as [P _]. apply Permutation_sym, Permutation_length_1_inv in P. exact P. }
  exists unsaved_schema. split.
  - unfold load_file. rewrite (accepts_octopus _ O), F.
    replace (read_text unsaved_text) with (Some unsaved_json) by (vm_compute; reflexivity).
    replace (from_json (without_nulls unsaved_json)) with (Some unsaved_schema) by (vm_compute; reflexivity).
    change (has_null_table unsaved_json) with false. change (has_null_column unsaved_json) with false.
    change (has_null_index unsaved_json) with false.
    cbv iota. f_equal. unfold load_schema_decoded, normalize. unfold unsaved_schema at 1. cbn [s_tables]. rewrite S1. reflexivity.
  - unfold to_text, to_json, normalize. unfold unsaved_schema at 1. cbn [s_tables]. rewrite S1. reflexivity.
Qed.

(** ** C92 *)

Lemma diff_required : forall c v, In c [DiffFlyway; DiffLiquibase; DiffMd] ->
  v "from" <> None -> v "to" <> None -> v "output" <> None -> required_given c v = true.
Proof.
  intros c v C F T O. unfold required_given. apply forallb_forall. intros f I.
  destruct C as [<-|[<-|[<-|[]]]]; cbn in I; repeat (destruct I as [<-|I]; [cbn; first [reflexivity
    |destruct (v "from"); [reflexivity|now destruct F]|destruct (v "to"); [reflexivity|now destruct T]|destruct (v "output"); [reflexivity|now destruct O]]|]); destruct I.
Qed.

Lemma empty_md : forall ord s, iteration_order ord -> md_write ord s s [] = no_changes (s_version s).
Proof.
  intros ord s H. unfold md_write, md_lines. cbn [changes_by_table fold_left].
  assert (K : mm_keys ord (@nil (string * list change)) = []).
  { unfold mm_keys. cbn [map]. apply Permutation_nil. symmetry. apply H. }
  rewrite K. cbn [sort_strings flat_map]. unfold no_changes, write_lines. cbn [map String.concat].
  unfold Mysql.newline. rewrite !app_assoc_s. reflexivity.
Qed.

Lemma same_file_diff : forall w fs v s, real_world w -> v "from" <> None -> v "to" <> None -> v "output" <> None ->
  load_file w fs (given v "from") = Loaded s -> load_file w fs (given v "to") = Loaded s -> distinct_names s ->
  given v "groups" = "" ->
  run w fs DiffFlyway v = ([(given v "output", "")], Done) /\
  run w fs DiffLiquibase v = ([(given v "output", w_yaml w [])], Done) /\
  run w fs DiffMd v = ([(given v "output", no_changes (s_version s))], Done).
Proof.
  intros w fs v s (_ & _ & OT & OC & OK & _) F T O LF LT D G.
  assert (FI : forall c, get_table_filter (flag_string c v "groups") = None).
  { intros c. unfold flag_string. destruct (declared c "groups"); [|reflexivity].
    change (get_table_filter (given v "groups") = None). now rewrite G. }
  unfold run. rewrite !diff_required by (cbn; auto). unfold action, diff_flyway, diff_liquibase, diff_md, with_schemas, with_schema.
  change (flag_string DiffFlyway v "from") with (given v "from"). change (flag_string DiffFlyway v "to") with (given v "to").
  change (flag_string DiffLiquibase v "from") with (given v "from"). change (flag_string DiffLiquibase v "to") with (given v "to").
  change (flag_string DiffMd v "from") with (given v "from"). change (flag_string DiffMd v "to") with (given v "to").
  rewrite LF, LT.
  rewrite !(self_diff_empty _ _ (mkDiffOption _ _ _ _) s OT OC D) by (intros t _; cbn [do_filter]; rewrite FI; exact I).
  rewrite (lq_self_diff_empty _ _ _ _ s OT OC D) by (intros t _; cbn [lo_filter]; rewrite FI; exact I).
  rewrite (empty_md _ s OK). repeat split.
Qed.

(** the same file twice, and a table that is not in the group *)
Definition grouped_text : string :=
  "{""tables"": [{""name"": ""t"", ""group"": ""a"", ""columns"": [{""name"": ""x"", ""type"": ""int""}]}]}".
Definition grouped_values : values :=
  option_values [("from", "db.json"); ("to", "db.json"); ("output", "diff.sql"); ("groups", "b")].
Definition grouped_schema : schema := schema_of (load_file sample_world (fun _ => Some grouped_text) "db.json").
Lemma same_file_groups : exists w fs v s, real_world w /\ given v "from" = given v "to" /\
  load_file w fs (given v "from") = Loaded s /\ distinct_names s /\
  run w fs DiffFlyway v = ([(given v "output", "DROP TABLE t;

")], Done).
Proof.
  exists sample_world, (fun _ => Some grouped_text), grouped_values, grouped_schema.
  split; [exact sample_real|]. split; [reflexivity|]. split; [vm_compute; reflexivity|]. split.
  - unfold distinct_names. replace grouped_schema with (mkSchema "" "" "" [mkTable "t" [mkCol "x" "int32" "" 0 0 false false false false "" "" [] None] "" "a" "" []]) by (vm_compute; reflexivity).
    split; [repeat constructor; intros []|]. intros t [<-|[]]. repeat constructor. intros [].
  - vm_compute. reflexivity.
Qed.

(** a case for each theorem *)
Definition layout_one : string :=
  "{""tables"": [{""name"": ""a""}, {""name"": ""b"", ""columns"": [{""name"": ""x"", ""type"": ""int""}]}]}".
Definition layout_two : string :=
  "{ ""name"" : """",
   ""tables"" : [
     {""columns"": [{""type"": ""int"", ""name"": ""x"", ""pk"": false}], ""name"": ""b""},
     {""name"": ""a"", ""desc"": """"} ] }".
Definition layout_schema (flip : bool) : schema :=
  let a := mkTable "a" [] "" "" "" [] in
  let b := mkTable "b" [mkCol "x" "int" "" 0 0 false false false false "" "" [] None] "" "" "" [] in
  mkSchema "" "" "" (if flip then [b; a] else [a; b]).
Definition layout_json_one : json :=
  JObj [("tables", JArr [JObj [("name", JStr "a")]; JObj [("name", JStr "b"); ("columns", JArr [JObj [("name", JStr "x"); ("type", JStr "int")]])]])].
Definition layout_json_two : json :=
  JObj [("name", JStr ""); ("tables", JArr [
    JObj [("columns", JArr [JObj [("type", JStr "int"); ("name", JStr "x"); ("pk", JBool false)]]); ("name", JStr "b")];
    JObj [("name", JStr "a"); ("desc", JStr "")]])].
Ltac columns_member := first [not_here|left; eexists; split; [here|]; repeat (constructor; [column|]); constructor].
Ltac a_table :=
  eexists; split; [reflexivity|]; split; [known|]; split; [member|]; split;
  [columns_member|]; do 3 (split; [member|]); indices.
Ltac described :=
  split; [vm_compute; reflexivity|]; split; [|apply fits_checked; reflexivity];
  eexists; split; [reflexivity|]; split; [known|]; do 3 (split; [member|]);
  left; eexists; split; [here|]; repeat (constructor; [a_table|]); constructor.
Lemma layout_same : same_content (Some layout_one) (Some layout_two).
Proof.
  right. exists layout_one, layout_two, (layout_schema false), (layout_schema true).
  split; [reflexivity|]. split; [reflexivity|]. split; [exists layout_json_one; described|].
  split; [exists layout_json_two; described|]. split.
  - split; [|repeat split]. apply perm_swap.
  - unfold distinct_table_keys. constructor; [intros [X|[]]; discriminate X|]. constructor; [intros []|constructor].
Qed.
Definition distinct_schema : schema := schema_of (load_file sample_world (fun _ => Some layout_two) "db.json").
Lemma distinct_case : exists s, load_file sample_world (fun _ => Some layout_two) "db.json" = Loaded s /\ distinct_names s /\
  s_tables s <> [].
Proof.
  exists distinct_schema. split; [vm_compute; reflexivity|].
  replace distinct_schema with (mkSchema "" "" "" [mkTable "a" [] "" "" "" [];
    mkTable "b" [mkCol "x" "int32" "" 0 0 false false false false "" "" [] None] "" "" "" []]) by (vm_compute; reflexivity).
  split; [|discriminate]. split.
  - constructor; [intros [X|[]]; discriminate X|]. constructor; [intros []|constructor].
  - intros t [<-|[<-|[]]]; repeat constructor. intros [].
Qed.
