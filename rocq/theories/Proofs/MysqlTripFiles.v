(** A second trip through MySQL DDL writes the same schema file *)
From Coq Require Import String Ascii List NArith ZArith Bool Lia Sorting.Permutation Sorting.Sorted.
From Verif.Model Require Import GoString Util Octopus Common Json JsonText Mysql Cli.
From Verif.Spec Require Import Text Order OctopusSpec CommonSpec JsonSpec MysqlGrammar MysqlSpec MysqlImportSpec FlywaySpec ServerSpec CliSpec
  OptionsSpec GroupSpec StabilitySpec EndSpec TripSpec.
From Verif.Proofs Require Import ListLemmas StringLemmas UtilProofs TypeProofs OctopusProofs JsonTextProofs V1Proofs StabilityProofs MysqlLex
  MysqlTypes MysqlRead MysqlFacts MysqlTables MysqlTrips StarDocProofs CliLoad CliImports CliGroups EndToEnd.
Import ListNotations.
Local Open Scope string_scope.

Lemma types_ascii : forall ty, In ty col_types -> utf8 ty.
Proof.
  intros ty I. apply utf8_ascii.
  assert (F : forallb (string_forallb (byte_in 0 127)) col_types = true) by (vm_compute; reflexivity).
  rewrite forallb_forall in F. auto.
Qed.
Lemma itoa_utf8 : forall n, utf8 (itoa n).
Proof.
  intros n. apply utf8_ascii. destruct (itoa_digits n) as [_ D]. revert D. generalize (itoa n). clear.
  induction s as [|c s IH]; intros D; [reflexivity|]. cbn [string_forallb]. rewrite IH by (intros x X; apply D; now right).
  specialize (D c (or_introl eq_refl)). revert D. clear. destruct c as [[|] [|] [|] [|] [|] [|] [|] [|]]; intros D; solve [reflexivity|discriminate D].
Qed.
Lemma now_utf8 : utf8 "fn::CURRENT_TIMESTAMP".
Proof. apply utf8_ascii. reflexivity. Qed.

Lemma kept_utf8 : forall c ds, default_means c ds -> utf8 (c_default c) -> utf8 (kept_default ds).
Proof.
  intros c ds [E|e P] U; [constructor|]. cbn [kept_default]. destruct P; cbn [stored]; try assumption.
  - exact now_utf8.
  - apply itoa_utf8.
  - constructor.
Qed.

(** ** Counting columns that cannot count *)
Definition uncount (c : column) : column := with_autoinc c (c_autoinc c && is_col_type_autoinc (c_type c)).
Definition uncount_table (t : table) : table := with_cols t (map uncount (t_cols t)).

Lemma canonical_kept : forall ty, In ty col_types -> to_normalized_type (to_lower ty) = ty.
Proof.
  intros ty I. assert (F : forallb (fun ty => String.eqb (to_normalized_type (to_lower ty)) ty) col_types = true) by (vm_compute; reflexivity).
  rewrite forallb_forall in F. apply String.eqb_eq. auto.
Qed.
Lemma uncount_validate : forall c, In (c_type c) col_types -> validate true (normalize_type c) = validate true (normalize_type (uncount c)) \/ c_name c = "".
Proof.
  intros [n ty d z sc nn pk uq ai df ou vs rf] I. cbn [c_type c_name] in *. unfold normalize_type, uncount, with_autoinc, with_type.
  cbn [c_type c_name c_autoinc]. rewrite (canonical_kept ty I). unfold validate. cbn [c_type c_name c_autoinc c_values].
  destruct (String.eqb_spec n "") as [E|E]; [now right|left]. destruct ai, (is_col_type_autoinc ty); reflexivity.
Qed.
Lemma uncount_cols : forall cs, (forall c, In c cs -> In (c_type c) col_types /\ c_name c <> "") -> (forall c, In c cs -> valid_column (uncount c)) ->
  normalize_cols (map uncount cs) = normalize_cols cs /\ snd (normalize_cols cs) = None.
Proof.
  induction cs as [|c cs IH]; intros H V; [split; reflexivity|]. cbn [map normalize_cols].
  destruct IH as [E N]; [intros; apply H; now right|intros; apply V; now right|].
  destruct (H c (or_introl eq_refl)) as [Hc Nc]. destruct (uncount_validate c Hc) as [X|X]; [|contradiction]. rewrite <- X, E.
  assert (Ok : snd (validate true (normalize_type c)) = None).
  { rewrite X. destruct (V c (or_introl eq_refl)) as (V1 & V2 & V3 & V4 & V5). unfold normalize_type.
    change (c_type (uncount c)) with (c_type c) in *. rewrite (canonical_kept _ Hc).
    change (with_type (uncount c) (c_type c)) with (uncount c). unfold validate.
    change (c_type (uncount c)) with (c_type c). change (c_values (uncount c)) with (c_values c) in *. change (c_name (uncount c)) with (c_name c).
    change (c_autoinc (uncount c)) with (c_autoinc c && is_col_type_autoinc (c_type c))%bool.
    destruct (String.eqb_spec (c_name c) "") as [Y|Y]; [contradiction|]. rewrite andb_false_r.
    assert (Z : (c_autoinc c && is_col_type_autoinc (c_type c) && negb (is_col_type_autoinc (c_type c)) = false)%bool)
      by (destruct (c_autoinc c), (is_col_type_autoinc (c_type c)); reflexivity).
    rewrite Z. change (c_type (uncount c)) with (c_type c). change (c_values (uncount c)) with (c_values c).
    assert (W : is_valid_col_type (c_type c) = true) by (apply str_in_iff; exact Hc). rewrite W. cbn [negb].
    destruct (String.eqb_spec (c_type c) "set") as [S|S]; cbn [andb].
    - specialize (V5 S). destruct (Nat.leb_spec (length (c_values c)) 0); [lia|]. destruct (Nat.ltb_spec 64 (length (c_values c))); [lia|]. cbn [orb].
      destruct (String.eqb_spec (c_type c) "enum") as [Q|Q]; [rewrite S in Q; discriminate Q|reflexivity].
    - destruct (String.eqb_spec (c_type c) "enum") as [Q|Q]; [|reflexivity]. specialize (V4 Q). destruct (c_values c); [contradiction|reflexivity]. }
  destruct (validate true (normalize_type c)) as [c' [e|]]; [discriminate Ok|]. destruct (normalize_cols cs) as [r e]. cbn [snd] in *. auto.
Qed.
Lemma uncount_tables : forall ts, (forall t c, In t ts -> In c (t_cols t) -> In (c_type c) col_types /\ c_name c <> "" /\ valid_column (uncount c)) ->
  normalize_tables (map uncount_table ts) = normalize_tables ts.
Proof.
  induction ts as [|t ts IH]; intros H; [reflexivity|]. cbn [map normalize_tables].
  destruct (uncount_cols (t_cols t)) as [E N].
  - intros c C. destruct (H t c (or_introl eq_refl) C) as (A & B & _). auto.
  - intros c C. apply (H t c (or_introl eq_refl) C).
  - change (t_cols (uncount_table t)) with (map uncount (t_cols t)). rewrite E, IH by (intros t' c T; apply H; now right).
    change (t_name (uncount_table t)) with (t_name t).
    destruct (normalize_cols (t_cols t)) as [cs [e|]]; [discriminate N|]. reflexivity.
Qed.
Lemma keys_uncounted : forall ts, map (fun t => (t_group t, t_name t)) (map uncount_table ts) = map (fun t => (t_group t, t_name t)) ts.
Proof. intros ts. rewrite map_map. reflexivity. Qed.
Lemma sort_uncounted : forall sortf ts, sorts_tables sortf -> NoDup (map (fun t => (t_group t, t_name t)) ts) ->
  sortf (map uncount_table ts) = map uncount_table (sortf ts).
Proof.
  intros sortf ts Hs D. destruct (Hs ts) as [P1 S1], (Hs (map uncount_table ts)) as [P2 S2].
  apply sorted_perm_unique; [|now apply sorted_strong| |].
  - rewrite P2. apply Permutation_map. now symmetry.
  - apply sorted_strong. clear - S1. induction S1 as [|a l S IH H]; [constructor|]. cbn [map]. constructor; [exact IH|].
    destruct H as [|b l H]; constructor. exact H.
  - eapply Permutation_NoDup; [apply Permutation_map; symmetry; exact P2|]. now rewrite keys_uncounted.
Qed.
Lemma normalize_uncounted : forall sortf s, sorts_tables sortf -> distinct_table_keys s ->
  (forall c, In c (columns_of s) -> In (c_type c) col_types /\ c_name c <> "" /\ valid_column (uncount c)) ->
  normalize sortf (with_tables s (map uncount_table (s_tables s))) = normalize sortf s.
Proof.
  intros sortf s Hs D H. unfold normalize. change (s_tables (with_tables s (map uncount_table (s_tables s)))) with (map uncount_table (s_tables s)).
  rewrite sort_uncounted by assumption. rewrite uncount_tables.
  - destruct (normalize_tables (sortf (s_tables s))). reflexivity.
  - intros t c T C. apply H. unfold columns_of. apply in_flat_map. exists t. split; [|exact C].
    eapply Permutation_in; [apply Hs|exact T].
Qed.

Lemma uncount_kept : forall reserved c, plain_column reserved c /\ survives c /\ without_ref c = c ->
  plain_column reserved (uncount c) /\ survives (uncount c) /\ without_ref (uncount c) = uncount c.
Proof.
  intros reserved [n ty d z sc nn pk uq ai df ou vs rf] ([P1 P2 P3 P4 (ds & P5) (us & P6) P7] & [S1 S2 S3 S4 S5] & R).
  unfold uncount, with_autoinc in *. cbn [c_name c_type c_values c_desc c_autoinc c_notnull c_size c_scale] in *.
  split; [|split; [|injection R as <-; reflexivity]].
  - constructor; try assumption.
    + exists ds. destruct P5; [now apply dm_none|now apply dm_some].
    + exists us. destruct P6; [now apply um_none|now apply (um_some _ f)].
  - constructor; try assumption. cbn. intros X. apply S5. now apply andb_true_iff in X.
Qed.
Lemma table_core_iff : forall t, table_core t = t <-> (t = mkTable (t_name t) (t_cols t) "" "" "" (t_indices t) /\ Forall (fun c => without_ref c = c) (t_cols t)).
Proof.
  intros [n cs d g k ix]. unfold table_core. cbn [t_name t_cols t_indices]. split.
  - intros E. injection E as E <- <- <-. split; [reflexivity|]. revert E. clear. induction cs as [|c cs IH]; [constructor|]. cbn [map]. intros E.
    injection E as E1 E2. constructor; auto.
  - intros [E F]. injection E as -> -> ->. f_equal. clear - F. induction F as [|c cs E F IH]; [reflexivity|]. cbn [map]. now rewrite E, IH.
Qed.
Lemma uncount_table_kept : forall reserved suffix t,
  plain_table reserved suffix t /\ NoDup (map c_name (t_cols t)) /\ Forall survives (t_cols t) /\ table_core t = t ->
  plain_table reserved suffix (uncount_table t) /\ NoDup (map c_name (t_cols (uncount_table t))) /\ Forall survives (t_cols (uncount_table t)) /\
  table_core (uncount_table t) = uncount_table t.
Proof.
  intros reserved suffix t ([P1 P2 [P3 P4] P5] & ND & Sv & C). apply table_core_iff in C as [C1 C2].
  assert (F : Forall (fun c => plain_column reserved c /\ survives c /\ without_ref c = c) (map uncount (t_cols t))).
  { apply Forall_forall. intros c X. apply in_map_iff in X as (c0 & <- & X). apply uncount_kept.
    rewrite Forall_forall in P4, Sv, C2. repeat split; auto; apply P4 || apply Sv; exact X. }
  split; [|split; [|split]].
  - constructor; try assumption. split.
    + change (t_cols (uncount_table t)) with (map uncount (t_cols t)). intros X. apply map_eq_nil in X. contradiction.
    + revert F. apply Forall_impl. tauto.
  - change (t_cols (uncount_table t)) with (map uncount (t_cols t)). rewrite map_map. exact ND.
  - revert F. apply Forall_impl. tauto.
  - apply table_core_iff. split; [rewrite C1; reflexivity|]. revert F. apply Forall_impl. tauto.
Qed.

Lemma column_valid : forall reserved pk uq c cd, plain_column reserved c -> sized c -> column_means c cd ->
  valid_column c -> (forall x, In x (column_strings c) -> utf8 x) ->
  valid_column (uncount (import_column pk uq cd)) /\ (forall x, In x (column_strings (import_column pk uq cd)) -> utf8 x).
Proof.
  intros reserved pk uq c cd P S M V U. destruct (column_tripped reserved pk uq c cd P S M) as (P' & [_ TS _ _ _] & _ & _).
  destruct M as (N & T & ds & us & D & Up & O), S as [Hn Hs].
  destruct (import_column_type (cd_type cd)) as [[ty n] s] eqn:E.
  rewrite (column_imported pk uq c cd ds us ty n s D Up N E O) in *.
  destruct (type_kept c (cd_type cd) ty n s (pc_type _ _ P) Hn T E) as (K1 & K2 & K3).
  destruct V as (V1 & V2 & V3 & V4 & V5). pose proof (pc_type _ _ P') as Ty. cbn [c_type] in Ty. split.
  - split; [exact V1|]. cbn [uncount with_autoinc c_type c_autoinc c_values]. split; [|split; [|split]].
    + apply octopus_types_valid. unfold is_valid_col_type. now apply str_in_iff.
    + intros A. apply andb_true_iff in A. apply autoinc_types; [|tauto]. apply octopus_types_valid. unfold is_valid_col_type. now apply str_in_iff.
    + intros X. destruct (K1 (or_introl X)) as [X1 X2]. rewrite X2. apply V4. congruence.
    + intros X. destruct (K1 (or_intror X)) as [X1 X2]. rewrite X2. apply V5. congruence.
  - unfold column_strings in *. cbn [c_name c_type c_desc c_default c_onupdate c_values c_ref ref_strings] in *. intros x X.
    apply in_app_iff in X as [[<-|[<-|[<-|[<-|[<-|[]]]]]]|X].
    + apply U. cbn. tauto.
    + now apply types_ascii.
    + apply U. cbn. tauto.
    + apply (kept_utf8 _ _ D). apply U. cbn. tauto.
    + destruct Up; [constructor|exact now_utf8].
    + rewrite app_nil_r in X. destruct K3 as [K3|K3]; rewrite K3 in X; [destruct X|]. apply U. apply in_app_iff. right. apply in_app_iff. auto.
Qed.

Lemma table_valid : forall reserved suffix t st excludes, plain_table reserved suffix t -> sized_table t -> table_means suffix t st ->
  (forall c, In c (t_cols t) -> valid_column c) -> (forall x, In x (table_strings t) -> utf8 x) ->
  Forall (fun t' => t_group t' = "" /\ (forall c, In c (t_cols t') -> valid_column (uncount c)) /\ (forall x, In x (table_strings t') -> utf8 x))
    (import_stmt (ss_new excludes) st) /\
  map t_name (import_stmt (ss_new excludes) st) = (if str_in (t_name t) excludes then [] else [t_name t]).
Proof.
  intros reserved suffix t st excludes [Pn _ [Pc Pcs] Pi] [ND SZ] (cds & M & ->) V U. cbn [import_stmt]. rewrite ss_new_in.
  destruct (str_in (t_name t) excludes); [split; [constructor|reflexivity]|].
  set (pkn := map c_name (filter c_pk (t_cols t))). set (uqn := map c_name (filter c_uq (t_cols t))).
  set (ixk := map (fun i => KIndex (ix_name i) (ix_cols i)) (t_indices t)).
  destruct (fold_left import_constraint (key_if pkn KPrimaryKey ++ key_if uqn (KUniq (t_name t ++ suffix)) ++ ixk)%list
              (ss_new [], ss_new [], [])) as [[pk uq] ixs] eqn:E.
  apply constraints_spec in E. destruct E as [_ [_ C]].
  assert (Eix : ixs = t_indices t).
  { rewrite C. unfold indices_of. rewrite !flat_map_app.
    replace (flat_map _ (key_if pkn KPrimaryKey)) with (@nil index) by (destruct pkn; reflexivity).
    replace (flat_map _ (key_if uqn (KUniq (t_name t ++ suffix)))) with (@nil index) by (destruct uqn; reflexivity).
    unfold ixk. cbn [app]. clear. induction (t_indices t) as [|[n cols] l IH]; [reflexivity|]. cbn. now rewrite IH. }
  rewrite Eix. clear C Eix. split; [|reflexivity]. constructor; [|constructor]. split; [reflexivity|].
  unfold table_strings in U. cbn [t_cols].
  assert (X : Forall (fun c => valid_column (uncount c) /\ forall x, In x (column_strings c) -> utf8 x) (map (import_column pk uq) cds)).
  { assert (U' : forall c x, In c (t_cols t) -> In x (column_strings c) -> utf8 x).
    { intros c x Hc Hx. apply U. apply in_app_iff. right. apply in_app_iff. left. apply in_flat_map. eauto. }
    clear - M Pcs SZ V U'. induction M as [|c cd cs cds Hc M IH]; [constructor|].
    inversion Pcs; subst. inversion SZ; subst. cbn [map]. constructor.
    - pose proof (V c (or_introl eq_refl)). eapply column_valid; eauto. intros x. apply U'. now left.
    - apply IH; auto; [intros c' C'; apply V; now right|]. intros c' x C'. apply U'. now right. }
  rewrite Forall_forall in X. split.
  - intros c Hc. exact (proj1 (X c Hc)).
  - intros x Hx. unfold table_strings in Hx. cbn [t_name t_desc t_group t_class t_cols t_indices] in Hx.
    apply in_app_iff in Hx as [[<-|[<-|[<-|[<-|[]]]]]|Hx]; try constructor.
    + apply U. now left.
    + apply in_app_iff in Hx as [Hx|Hx].
      * apply in_flat_map in Hx as (c & Hc & Hx). exact (proj2 (X c Hc) x Hx).
      * apply U. apply in_app_iff. right. apply in_app_iff. now right.
Qed.

Lemma tables_valid : forall reserved suffix excludes ts stmts, Forall2 (table_means suffix) ts stmts ->
  Forall (plain_table reserved suffix) ts -> Forall sized_table ts ->
  (forall t, In t ts -> (forall c, In c (t_cols t) -> valid_column c) /\ (forall x, In x (table_strings t) -> utf8 x)) ->
  Forall (fun t' => t_group t' = "" /\ (forall c, In c (t_cols t') -> valid_column (uncount c)) /\ (forall x, In x (table_strings t') -> utf8 x))
    (flat_map (import_stmt (ss_new excludes)) stmts) /\
  map t_name (flat_map (import_stmt (ss_new excludes)) stmts) = filter (fun n => negb (str_in n excludes)) (map t_name ts).
Proof.
  intros reserved suffix excludes ts stmts M. induction M as [|t st ts sts Ht M IH]; intros HP HS HV; [split; [constructor|reflexivity]|].
  inversion HP; subst. inversion HS; subst. destruct (HV t (or_introl eq_refl)) as [V U].
  destruct (table_valid reserved suffix t st excludes) as [A B]; auto.
  destruct IH as [A' B']; auto. { intros t' T'. apply HV. now right. }
  cbn [flat_map map filter]. split; [now apply Forall_app|]. rewrite map_app, B, B'. destruct (str_in (t_name t) excludes); reflexivity.
Qed.

Lemma keys_of_names : forall ts, Forall (fun t => t_group t = "") ts -> NoDup (map t_name ts) -> NoDup (map (fun t => (t_group t, t_name t)) ts).
Proof.
  induction 1 as [|t ts G F IH]; intros N; [constructor|]. cbn [map] in *. inversion N as [|? ? A B]; subst. constructor; [|auto].
  intros X. apply A. apply in_map_iff in X as (t' & E & T). apply in_map_iff. exists t'. split; [congruence|exact T].
Qed.

Lemma import_runs : forall w reserved fs v text stmts s out, reads_sql w reserved -> read_sql reserved text = Some stmts ->
  fs (given v "input") = Some text -> v "input" <> None -> v "output" <> None ->
  import_sql (split_char "," (given v "excludes")) (given v "author") (given v "version") stmts = Ok s ->
  to_text (w_sort w) s = Some out ->
  run w fs ImportMysql v = ([(given v "output", out)], Done).
Proof.
  intros w reserved fs v text stmts s out Sq Rd F I O Im T. unfold run. rewrite needed_enough by (intros n [<-|[<-|[]]]; assumption).
  unfold action, import_mysql. change (flag_string ImportMysql v "input") with (given v "input").
  change (flag_string ImportMysql v "excludes") with (given v "excludes").
  change (flag_string ImportMysql v "author") with (given v "author").
  change (flag_string ImportMysql v "version") with (given v "version").
  change (flag_string ImportMysql v "output") with (given v "output").
  rewrite F, (Sq _ _ Rd), Im. unfold with_res, save_schema. now rewrite T.
Qed.

Lemma trips_files : forall w reserved fs v s ts,
  sorts_tables (w_sort w) -> reads_sql w reserved ->
  load_file w fs (given v "input") = Loaded s -> valid_schema s ->
  v "input" <> None -> v "output" <> None ->
  picked (chosen (given v "groups")) (s_tables s) ts ->
  Forall (plain_table reserved (given v "uniqueNameSuffix")) ts ->
  NoDup (map t_name ts) ->
  (forall t, In t ts -> NoDup (map c_name (t_cols t))) ->
  exists sql, run w fs ExportMysql v = ([(given v "output", sql)], Done) /\
  forall fs1 v1, fs1 (given v1 "input") = Some sql -> v1 "input" <> None -> v1 "output" <> None ->
  octopus_name (given v1 "output") -> utf8 (given v1 "author") -> utf8 (given v1 "version") ->
  exists file, run w fs1 ImportMysql v1 = ([(given v1 "output", file)], Done) /\
  forall fs2 v2, fs2 (given v2 "input") = Some file -> octopus_name (given v2 "input") -> v2 "input" <> None -> v2 "output" <> None ->
  given v2 "groups" = "" -> ~ char_in "`" (given v2 "uniqueNameSuffix") ->
  exists sql', run w fs2 ExportMysql v2 = ([(given v2 "output", sql')], Done) /\
  forall fs3 v3, fs3 (given v3 "input") = Some sql' -> v3 "input" <> None -> v3 "output" <> None ->
  given v3 "author" = given v1 "author" -> given v3 "version" = given v1 "version" -> given v3 "excludes" = "" ->
  run w fs3 ImportMysql v3 = ([(given v3 "output", file)], Done).
Proof.
  intros w reserved fs v s ts Hs Sq L V I O P Pl ND Tc.
  exists (my_export (get_table_filter (given v "groups")) (given v "uniqueNameSuffix") s).
  split; [now apply mysql_command|]. intros fs1 v1 F1 I1 O1 On Ua Uv.
  assert (E := picked_filter _ _ _ P).
  assert (Sub : forall t, In t ts -> In t (s_tables s)) by exact (picked_incl _ _ _ P).
  pose proof (loaded_fits _ _ _ _ Hs L) as Fit. pose proof (load_utf8 _ _ _ _ Hs L) as Utf.
  assert (SZ : Forall sized_table ts).
  { apply Forall_forall. intros t T. split; [exact (Tc t T)|]. apply Forall_forall. intros c C. apply Fit.
    unfold columns_of. apply in_flat_map. eauto. }
  destruct (export_reads reserved (get_table_filter (given v "groups")) (given v "uniqueNameSuffix") s) as (stmts & Rd & M); [now rewrite E|].
  rewrite E in M.
  set (ex := split_char "," (given v1 "excludes")). set (S0 := import_stmts ex (given v1 "author") (given v1 "version") stmts).
  assert (K0 : Forall (fun t' => plain_table reserved "" t' /\ NoDup (map c_name (t_cols t')) /\ Forall survives (t_cols t') /\ table_core t' = t')
                (s_tables S0)).
  { unfold S0, import_stmts. cbn [s_tables]. clear - M Pl SZ. induction M as [|t st ts sts Ht M IH]; [constructor|].
    inversion Pl; subst. inversion SZ; subst. cbn [flat_map]. apply Forall_app. split; [|auto].
    eapply table_tripped; eauto. }
  destruct (tables_valid reserved _ ex ts stmts M Pl SZ) as [KV KN].
  { intros t T. split.
    - intros c C. apply V. unfold columns_of. apply in_flat_map. eauto.
    - intros x X. apply Utf. unfold schema_strings. apply in_app_iff. right. apply in_flat_map. eauto. }
  change (flat_map (import_stmt (ss_new ex)) stmts) with (s_tables S0) in KV, KN. rewrite Forall_forall in KV.
  assert (DK0 : distinct_table_keys S0).
  { apply keys_of_names; [apply Forall_forall; intros t T; exact (proj1 (KV t T))|]. rewrite KN. now apply NoDup_filter. }
  set (S := with_tables S0 (map uncount_table (s_tables S0))).
  assert (K : Forall (fun t' => plain_table reserved "" t' /\ NoDup (map c_name (t_cols t')) /\ Forall survives (t_cols t') /\ table_core t' = t')
                (s_tables S)).
  { apply Forall_forall. intros t T. apply in_map_iff in T as (t0 & <- & T). apply uncount_table_kept. rewrite Forall_forall in K0. auto. }
  assert (VS : valid_schema S).
  { intros c C. unfold columns_of in C. apply in_flat_map in C as (t & T & C). apply in_map_iff in T as (t0 & <- & T).
    apply in_map_iff in C as (c0 & <- & C). exact (proj1 (proj2 (KV t0 T)) c0 C). }
  assert (US : schema_utf8 S).
  { intros x X. unfold schema_strings in X. apply in_app_iff in X as [[<-|[<-|[<-|[]]]]|X]; [exact Ua|constructor|exact Uv|].
    apply in_flat_map in X as (t & T & X). apply in_map_iff in T as (t0 & <- & T). apply (proj2 (proj2 (KV t0 T)) x).
    unfold table_strings in *. change (t_cols (uncount_table t0)) with (map uncount (t_cols t0)) in X. rewrite flat_map_concat_map, map_map, <- flat_map_concat_map in X.
    exact X. }
  assert (FS : fits_u16 S).
  { intros c C. unfold columns_of in C. apply in_flat_map in C as (t & T & C). apply in_map_iff in T as (t0 & <- & T).
    apply in_map_iff in C as (c0 & <- & C). apply (mysql_fits ex (given v1 "author") (given v1 "version") stmts c0).
    apply in_flat_map. exists t0. split; [exact T|exact C]. }
  assert (DK : distinct_table_keys S) by (unfold distinct_table_keys; cbn [S with_tables s_tables]; now rewrite keys_uncounted).
  assert (NS : normalize (w_sort w) S = normalize (w_sort w) S0).
  { apply normalize_uncounted; auto. intros c C. unfold columns_of in C. apply in_flat_map in C as (t & T & C).
    pose proof (proj1 (proj2 (KV t T)) c C) as Vc. rewrite Forall_forall in K0. destruct (K0 t T) as ([_ _ [_ Pc] _] & _).
    rewrite Forall_forall in Pc. split; [exact (pc_type _ _ (Pc c C))|]. split; [exact (proj1 Vc)|exact Vc]. }
  destruct (valid_saved w S Hs VS FS US) as (file & Tf & Ld).
  assert (Tf0 : to_text (w_sort w) S0 = Some file) by (rewrite <- Tf; unfold to_text, to_json; now rewrite NS). exists file.
  assert (Im0 : import_sql ex (given v1 "author") (given v1 "version") stmts = Ok S0)
    by (unfold import_sql; now rewrite (means_no_panic _ _ _ _ M)).
  split; [exact (import_runs w reserved fs1 v1 _ stmts S0 file Sq Rd F1 I1 O1 Im0 Tf0)|].
  intros fs2 v2 F2 On2 I2 O2 G2 Sx. destruct (Ld fs2 _ On2 F2) as (s1 & L1 & (Q1 & Q2 & Q3 & Q4 & Q5) & V1).
  exists (my_export (get_table_filter (given v2 "groups")) (given v2 "uniqueNameSuffix") s1).
  split; [now apply mysql_command|]. intros fs3 v3 F3 I3 O3 A3 B3 X3.
  assert (K1 : Forall (fun t' => plain_table reserved (given v2 "uniqueNameSuffix") t' /\ NoDup (map c_name (t_cols t')) /\
                                 Forall survives (t_cols t') /\ table_core t' = t') (s_tables s1)).
  { apply Forall_forall. intros t T. rewrite Forall_forall in K. destruct (K t (Permutation_in t Q1 T)) as ([Y1 Y2 Y3 Y4] & Y).
    split; [|exact Y]. constructor; assumption. }
  assert (F : filter (passes (get_table_filter (given v2 "groups"))) (s_tables s1) = s_tables s1).
  { rewrite G2. cbn. clear. induction (s_tables s1) as [|t l IH]; [reflexivity|]. cbn [filter]. now rewrite IH. }
  destruct (export_import reserved (get_table_filter (given v2 "groups")) (given v2 "uniqueNameSuffix") s1
              (split_char "," (given v3 "excludes")) (given v3 "author") (given v3 "version")) as (stmts' & Rd' & Im').
  { rewrite F. revert K1. apply Forall_impl. tauto. }
  { rewrite F. revert K1. apply Forall_impl. tauto. }
  refine (import_runs w reserved fs3 v3 _ stmts' _ file Sq Rd' F3 I3 O3 Im' _). rewrite F.
  assert (G : map table_core (filter (fun t => negb (str_in (t_name t) (split_char "," (given v3 "excludes")))) (s_tables s1)) = s_tables s1).
  { rewrite X3. clear - K1. induction K1 as [|t l (Y1 & _ & _ & Y2) K1 IH]; [reflexivity|]. cbn [filter].
    assert (Ne : str_in (t_name t) (split_char "," "") = false).
    { destruct (str_in _ _) eqn:Z; [|reflexivity]. apply str_in_iff in Z. destruct Z as [Z|[]].
      destruct Y1 as [[_ Y1] _ _ _]. rewrite <- Z in Y1. discriminate Y1. }
    rewrite Ne. cbn [negb map]. rewrite Y2. f_equal. exact IH. }
  rewrite G. rewrite <- Tf. unfold to_text, to_json. f_equal.
  set (S3 := mkSchema (given v3 "author") "" (given v3 "version") (s_tables s1)).
  assert (N : normalize (w_sort w) S3 = normalize (w_sort w) S).
  { unfold normalize. rewrite (sort_same (w_sort w) S S3 Hs); [|split; [symmetry; exact Q1|]|exact DK].
    - destruct (normalize_tables _) as [ts0 e]. unfold with_tables, S3, S, with_tables, S0, import_stmts. cbn [s_author s_name s_version]. now rewrite A3, B3.
    - unfold S3, S, with_tables, S0, import_stmts. cbn [s_author s_name s_version]. now rewrite A3, B3. }
  now rewrite N.
Qed.
