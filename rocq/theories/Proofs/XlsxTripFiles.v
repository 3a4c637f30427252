(** Octopus files that come from workbooks, go to workbooks and come back (C110) *)
From Coq Require Import String Ascii List NArith Bool Arith Lia Sorting.Permutation.
From Verif.Model Require Import GoString Util Octopus Common Json JsonText Xlsx Cli.
From Verif.Spec Require Import Text Order OctopusSpec XlsxSpec BookSpec DiffSpec JsonSpec CliSpec OptionsSpec StabilitySpec EndSpec.
From Verif.Proofs Require Import StringLemmas ListLemmas UtilProofs TypeProofs OctopusProofs XlsxText XlsxProofs XlsxRound XlsxFacts JsonProofs JsonTextProofs
  StarDocProofs CliLoad CliImports StabilityProofs EndToEnd XlsxTrips.
Import ListNotations.
Local Open Scope string_scope.

(** ** Text stays text *)

Lemma cut_high : forall c p s a b lo hi, byte 0 127 c -> byte lo hi p -> (128 <= lo)%N -> String p s = a ++ String c b ->
  exists a', a = String p a' /\ s = a' ++ String c b.
Proof.
  intros c p s a b lo hi B P L E. destruct a as [|y a]; cbn [append] in E; injection E as E1 E2.
  - subst p. exfalso. unfold byte in *. lia.
  - subst y. exists a. auto.
Qed.
Ltac cut_step E := match type of E with String ?p ?s = ?a ++ String ?c ?b =>
  match goal with P : byte _ _ p |- _ => let a' := fresh "a" in eapply cut_high in E; [|eassumption|exact P|lia]; destruct E as (a' & -> & E) end end.
Lemma utf8_cut : forall c s, byte 0 127 c -> utf8 s -> forall a b, s = a ++ String c b -> utf8 a /\ utf8 b.
Proof.
  intros c s B U. induction U as [|x s X U IH]; intros a b E; [destruct a; discriminate E|].
  destruct X as [p P|p q P Q|p q r P Q R|p q r P Q R|p q r P Q R|p q r P Q R|p q r t P Q R T|p q r t P Q R T|p q r t P Q R T]; cbn [append] in E.
  { destruct a as [|y a]; cbn [append] in E; injection E as E1 E2; [subst; split; [constructor|exact U]|].
    subst y. destruct (IH a b E2) as [I1 I2]. split; [now apply utf8_one|exact I2]. }
  all: repeat cut_step E; destruct (IH _ _ E) as [I1 I2]; (split; [|exact I2]).
  - apply (utf8_cons (String p (String q ""))); [now apply ch_2|exact I1].
  - apply (utf8_cons (String p (String q (String r "")))); [now apply ch_3a|exact I1].
  - apply (utf8_cons (String p (String q (String r "")))); [now apply ch_3b|exact I1].
  - apply (utf8_cons (String p (String q (String r "")))); [now apply ch_3c|exact I1].
  - apply (utf8_cons (String p (String q (String r "")))); [now apply ch_3d|exact I1].
  - apply (utf8_cons (String p (String q (String r (String t ""))))); [now apply ch_4a|exact I1].
  - apply (utf8_cons (String p (String q (String r (String t ""))))); [now apply ch_4b|exact I1].
  - apply (utf8_cons (String p (String q (String r (String t ""))))); [now apply ch_4c|exact I1].
Qed.
Lemma split_utf8 : forall c s, byte 0 127 c -> utf8 s -> forall x, In x (split_char c s) -> utf8 x.
Proof.
  intros c s B U. rewrite <- (split_char_join c s) in U. pose proof (split_char_nonempty c s) as N.
  revert U. induction (split_char c s) as [|p l IH]; intros U x I; [destruct I|].
  destruct l as [|q l]; [destruct I as [<-|[]]; exact U|].
  change (join (String c "") (p :: q :: l)) with (p ++ String c (join (String c "") (q :: l))) in U.
  destruct (utf8_cut c _ B U _ _ eq_refl) as [U1 U2]. destruct I as [<-|I]; [exact U1|]. apply IH; [discriminate|exact U2|exact I].
Qed.
Lemma trim_utf8 : forall s, utf8 s -> utf8 (trim_space s).
Proof. intros s U. unfold trim_space. now apply trim_right_utf8, trim_left_utf8. Qed.
Lemma ascii_byte : forall c, byte_in 0 127 c = true -> byte 0 127 c.
Proof. intros c H. now apply byte_in_byte. Qed.
Lemma attr_utf8 : forall x k, utf8 x -> utf8 (attr_get (parse_attributes x) k).
Proof.
  intros x k U. unfold attr_get. destruct (alist_find (parse_attributes x) k) as [v|] eqn:E; [|constructor].
  apply alist_find_in, in_parse, in_map_iff in E as (a & E & I).
  assert (Ua : utf8 (trim_space a)) by (apply trim_utf8; refine (split_utf8 "," x _ U a I); apply ascii_byte; reflexivity).
  unfold attr_entry in E. destruct (split_once "=" (trim_space a)) as [k' [v'|]] eqn:SO.
  - injection E as -> ->. apply split_once_some in SO as [SO _].
    refine (proj2 (utf8_cut "=" _ _ Ua _ _ SO)). apply ascii_byte; reflexivity.
  - injection E as -> <-. apply utf8_ascii. reflexivity.
Qed.
Lemma relation_utf8 : forall x, utf8 (relationship_of x).
Proof. intros x. apply utf8_ascii. unfold relationship_of. destruct x as [|c x]; [reflexivity|]. destruct (Ascii.eqb c ">"), (Ascii.eqb c "<"), (Ascii.eqb c "-"); reflexivity. Qed.
Lemma reference_utf8 : forall x y, utf8 x -> In y (ref_strings (parse_reference x)) -> utf8 y.
Proof.
  intros x y U. unfold parse_reference. destruct (String.eqb x ""); [intros []|].
  destruct (split_char "." x) as [|a [|b [|c l]]] eqn:S; try (intros []).
  destruct (String.eqb a "" || String.eqb b "")%bool; [intros []|].
  assert (G : forall z, In z (split_char "." x) -> utf8 z) by (apply split_utf8; [apply ascii_byte; reflexivity|exact U]).
  rewrite S in G. cbn [ref_strings ref_table ref_column ref_rel]. intros [<-|[<-|[<-|[]]]]; [apply G; now left|apply G; right; now left|apply relation_utf8].
Qed.
Lemma letters_utf8 : forall s, string_forallb is_letter s = true -> utf8 s.
Proof.
  intros s H. apply utf8_ascii. induction s as [|c s IH]; [reflexivity|]. cbn in *. apply andb_true_iff in H as [A B]. rewrite (IH B), andb_true_r.
  revert A. clear. destruct c as [[|] [|] [|] [|] [|] [|] [|] [|]]; intros H; solve [reflexivity|discriminate H].
Qed.
Lemma type_utf8 : forall x ty n s, utf8 x -> parse_type x = (ty, n, s) -> utf8 ty.
Proof.
  intros x ty n s U. unfold parse_type. destruct (match_type x) as [[[m a] b]|] eqn:M; intros E; injection E as <- _ _; [|exact U].
  apply letters_utf8. now apply match_letters in M.
Qed.
Definition text_rows (rows : list (list string)) : Prop := forall r x, In r rows -> In x r -> utf8 x.
Lemma cell_utf8 : forall rows r i, text_rows rows -> In r rows -> utf8 (cell r i).
Proof.
  intros rows r i T R. unfold cell. apply trim_utf8. unfold get_cell_value. destruct (nth_in_or_default i r "") as [I| ->]; [|constructor]. exact (T r _ R I).
Qed.
Lemma utf8_keeps : forall g rows, utf8 g -> text_rows rows -> keeps_rows g (fun t => forall x, In x (table_strings t) -> utf8 x) rows.
Proof.
  intros g rows Ug T. split; [|split].
  - intros r R _ x. unfold table_strings. cbn [t_name t_desc t_group t_class t_cols t_indices flat_map app].
    intros [<-|[<-|[<-|[<-|[]]]]]; try (now apply (cell_utf8 rows)); [exact Ug|]. apply attr_utf8. now apply (cell_utf8 rows).
  - intros r t R Q _ x X. unfold add_index_column in X.
    assert (C0 := cell_utf8 rows r 0 T R). assert (C1 := cell_utf8 rows r 1 T R).
    assert (G : forall y, In y (flat_map (fun i => ix_name i :: ix_cols i) (t_indices t)) -> utf8 y).
    { intros y Y. apply Q. unfold table_strings. apply in_app_iff. right. apply in_app_iff. now right. }
    destruct (index_by_name (t_indices t) (cell r 0)) as [ix|]; unfold table_strings, with_indices in X; cbn [t_name t_desc t_group t_class t_cols t_indices] in X;
      apply in_app_iff in X as [X|X]; try (apply Q; unfold table_strings; apply in_app_iff; now left);
      apply in_app_iff in X as [X|X]; try (apply Q; unfold table_strings; apply in_app_iff; right; apply in_app_iff; now left).
    + revert X G. generalize (t_indices t). clear - C0 C1. induction l as [|i l IH]; cbn [index_add_column flat_map]; intros X G; [destruct X|].
      destruct (String.eqb (ix_name i) (cell r 0)); cbn [flat_map ix_name ix_cols] in X; apply in_app_iff in X as [X|X].
      * destruct X as [<-|X]; [exact C0|]. apply in_app_iff in X as [X|[<-|[]]]; [|exact C1]. apply G. cbn [flat_map]. apply in_app_iff. left. now right.
      * apply G. cbn [flat_map]. apply in_app_iff. now right.
      * apply G. cbn [flat_map]. apply in_app_iff. now left.
      * apply IH; [exact X|]. intros y Y. apply G. cbn [flat_map]. apply in_app_iff. now right.
    + rewrite flat_map_app in X. apply in_app_iff in X as [X|X]; [now apply G|]. cbn in X. destruct X as [<-|[<-|[]]]; assumption.
  - intros r nn t R Q _ _ x X. unfold add_column, with_cols, table_strings in X. cbn [t_name t_desc t_group t_class t_cols t_indices] in X.
    apply in_app_iff in X as [X|X]; [apply Q; unfold table_strings; apply in_app_iff; now left|].
    apply in_app_iff in X as [X|X]; [|apply Q; unfold table_strings; apply in_app_iff; right; apply in_app_iff; now right].
    rewrite flat_map_app in X. apply in_app_iff in X as [X|X]; [apply Q; unfold table_strings; apply in_app_iff; right; apply in_app_iff; now left|].
    cbn [flat_map] in X. rewrite app_nil_r in X. unfold read_column in X. fold (cell r 0) (cell r 1) (cell r 2) (cell r 3) (cell r 4) (cell r 5) (cell r 6) in X.
    destruct (parse_type (cell r 2)) as [[ty n] s] eqn:P. unfold column_strings in X.
    cbn [c_name c_type c_desc c_default c_onupdate c_values c_ref app] in X.
    destruct X as [<-|[<-|[<-|[<-|[<-|X]]]]]; try (now apply (cell_utf8 rows)); try (apply attr_utf8; now apply (cell_utf8 rows)).
    + refine (type_utf8 _ _ _ _ _ P). now apply (cell_utf8 rows).
    + refine (reference_utf8 _ _ _ X). now apply (cell_utf8 rows).
Qed.
Lemma meta_utf8 : forall rows m k, text_rows rows -> (forall k v, In (k, v) m -> utf8 v) ->
  utf8 (attr_get (fold_left (fun m r => match r with [] => m | k :: _ => (k, get_cell_value r 1) :: m end) rows m) k).
Proof.
  induction rows as [|r rows IH]; intros m k T M; cbn [fold_left].
  - unfold attr_get. destruct (alist_find m k) as [v|] eqn:E; [|constructor]. exact (M _ _ (alist_find_in _ _ _ E)).
  - apply IH; [intros r' x R; apply T; now right|]. destruct r as [|x r]; [exact M|]. intros k' v [E|I]; [|exact (M _ _ I)].
    injection E as <- <-. unfold get_cell_value. destruct (nth_in_or_default 1 (x :: r) "") as [I| ->]; [|constructor]. apply (T (x :: r)); [now left|exact I].
Qed.
Lemma import_utf8 : forall ord wb s, iteration_order ord -> text_book wb -> import_xlsx ord wb = inl s -> schema_utf8 s.
Proof.
  intros ord wb s O T E x X. unfold schema_strings in X. apply in_app_iff in X as [X|X].
  - unfold import_xlsx in E. destruct (read_sheets wb (ord (group_names wb)) []) as [ts|]; [|discriminate]. injection E as <-.
    cbn [s_author s_name s_version] in X.
    assert (G : forall k, utf8 (attr_get (match meta_sheet wb with Some rows => read_meta_sheet rows | None => [] end) k)).
    { intros k. destruct (meta_sheet wb) as [rows|] eqn:M; [|constructor]. unfold meta_sheet in M. apply alist_find_in, in_rev in M.
      apply meta_utf8; [|intros ? ? []]. intros r y R Y. exact (proj2 (T _ M) r y R Y). }
    destruct X as [<-|[<-|[<-|[]]]]; apply G.
  - apply in_flat_map in X as (t & It & X).
    destruct (import_inv ord wb (fun _ t => forall x, In x (table_strings t) -> utf8 x) s O) with (t := t) as (sh & _ & _ & Q); auto.
    intros sh rows S _ R. apply utf8_keeps; [exact (proj1 (T sh S))|]. intros r y Y Z. destruct (R r Y) as (sh' & S' & I'). exact (proj2 (T sh' S') r y I' Z).
Qed.

(** ** Files *)

Lemma readable_fit : forall c, readable_type c -> fit_type c.
Proof. intros c R. split; [exact (readable_parse c R)|]. split; [apply format_trimmed; apply R|exact (format_not_table c R)]. Qed.
Lemma repaired_fit : forall t t', cells_table (t_group t) t -> table_repaired t t' -> (forall c, In c (t_cols t') -> readable_type c) -> fit_table t'.
Proof.
  intros t t' (_ & A & B & C & D & F & G & H) (R & E1 & E2 & E3 & E4 & E5) T. unfold fit_table. rewrite E1, E2, E4, E5.
  repeat (split; [assumption|]). split; [|split; assumption]. revert F T. clear - R. induction R as [|c c' l l' Rc R IH]; intros F T; [constructor|].
  inversion F as [|? ? (X1 & X2 & _ & X3 & X4 & X5 & X6 & X7) F']; subst. constructor; [|apply IH; [exact F'|intros d I; apply T; now right]].
  destruct Rc as (_ & _ & Y1 & Y2 & _ & _ & _ & Y3 & Y4 & Y5 & _ & Y6 & Y7). unfold fit_column. rewrite Y1, Y2, Y3, Y4, Y5, Y6, Y7.
  repeat (split; [assumption|]). split; [apply readable_fit; apply T; now left|]. auto.
Qed.
Lemma repaired_keys : forall ts ts', Forall2 table_repaired ts ts' -> map (fun t => (t_group t, t_name t)) ts' = map (fun t => (t_group t, t_name t)) ts.
Proof. induction 1 as [|t t' l l' (_ & A & _ & B & _) F IH]; [reflexivity|]. cbn [map]. now rewrite A, B, IH. Qed.
Lemma repaired_in : forall ts ts', Forall2 table_repaired ts ts' -> forall t', In t' ts' -> exists t, In t ts /\ table_repaired t t'.
Proof.
  induction 1 as [|t t' l l' R F IH]; intros x I; [destruct I|]. destruct I as [<-|I]; [exists t; split; [now left|exact R]|].
  destruct (IH x I) as (y & Y & Z). exists y. split; [now right|exact Z].
Qed.

Lemma book_files : forall w fs v text wb file, real_world w -> keeps_workbooks w ->
  fs (given v "input") = Some text -> w_open_xlsx w text = Some wb -> text_book wb ->
  w_sheet_ok w "Meta" = true -> (forall sh, In sh wb -> fst sh <> "" /\ w_sheet_ok w (fst sh) = true) ->
  run w fs ImportXlsx v = ([(given v "output", file)], Done) ->
  forall fs1 v1 s, fs1 (given v1 "input") = Some file -> octopus_name (given v1 "input") ->
  v1 "input" <> None -> v1 "output" <> None ->
  load_file w fs1 (given v1 "input") = Loaded s ->
  (forall c, In c (columns_of s) -> readable_type c /\ settled c) -> distinct_table_keys s ->
  exists book, run w fs1 ExportXlsx v1 = ([(given v1 "output", book)], Done) /\
  forall fs2 v2, fs2 (given v2 "input") = Some book -> v2 "input" <> None -> v2 "output" <> None ->
  run w fs2 ImportXlsx v2 = ([(given v2 "output", file)], Done).
Proof.
  intros w fs v text wb file (Hs & _ & _ & _ & HK & _) Kw F Op Tx M Nm R fs1 v1 s F1 On I1 O1 L Rd D.
  unfold run in R. destruct (required_given ImportXlsx v); [|discriminate R]. unfold action, import_xlsx_file in R.
  change (flag_string ImportXlsx v "input") with (given v "input") in R. change (flag_string ImportXlsx v "output") with (given v "output") in R.
  rewrite F, Op in R. destruct (import_xlsx (w_ord_keys w) wb) as [s0|] eqn:Im; [|discriminate R].
  unfold save_schema in R. destruct (to_text (w_sort w) s0) as [file'|] eqn:Tt; [|discriminate R]. injection R as ->.
  destruct (text_roundtrip _ _ _ Hs (xlsx_fits _ _ _ Im) Tt) as (s' & N & Rt & Fit).
  rewrite clean_schema_utf8 in Rt by exact (normalized_utf8 _ _ _ Hs N (import_utf8 _ _ _ HK Tx Im)).
  rewrite (load_encoded w fs1 _ file s' (accepts_octopus _ On) F1 Rt Fit) in L.
  destruct (normalize_again _ _ _ _ Hs Hs N) as [(ts' & N' & P') NA]. unfold load_schema_decoded in L. rewrite N' in L. injection L as <-.
  destruct (normalize_repaired _ _ _ Hs N) as ((ts & P & Rp) & Srt & V & A1 & A2 & A3).
  assert (D' : distinct_table_keys s').
  { unfold distinct_table_keys in *. cbn [with_tables s_tables] in D. exact (Permutation_NoDup (Permutation_map _ P') D). }
  assert (D0 : distinct_table_keys s0).
  { unfold distinct_table_keys in *. rewrite (repaired_keys _ _ Rp) in D'. exact (Permutation_NoDup (Permutation_map _ P) D'). }
  specialize (NA D0). rewrite NA in N'. injection N' as E1.
  assert (Es : with_tables s' ts' = s') by (rewrite <- E1; destruct s'; reflexivity). rewrite Es in *. clear Es E1 P' ts'.
  assert (Ft : forall t, In t (s_tables s') -> fit_table t /\ t_group t <> "" /\ t_group t <> "Meta" /\ w_sheet_ok w (t_group t) = true).
  { intros t T. destruct (repaired_in _ _ Rp t T) as (t0 & T0 & R0). apply (Permutation_in _ P) in T0.
    destruct (import_tables _ _ _ HK Im t0 T0) as (Ct & Nt & sh & Sh & Eg). pose proof R0 as (_ & _ & _ & G0 & _). split.
    - apply (repaired_fit t0 t Ct R0). intros c C. apply Rd. unfold columns_of. apply in_flat_map. eauto.
    - rewrite G0. destruct (Nm sh Sh) as [Y1 Y2]. rewrite Eg in Y1, Y2. auto. }
  destruct (fit_trip (w_sheet_ok w) (flag_bool ExportXlsx v1 "useNullColumn") (w_ord_keys w) s' HK M) as (wb1 & X & B).
  { intros t T. apply (Ft t T). }
  { apply Forall_forall. intros t T. apply (Ft t T). }
  exists (w_save_xlsx w wb1). split.
  - unfold run. rewrite needed_enough by (intros n [<-|[<-|[]]]; assumption).
    unfold action, export_xlsx_file, with_schema. change (flag_string ExportXlsx v1 "input") with (given v1 "input").
    rewrite (load_encoded w fs1 _ file s' (accepts_octopus _ On) F1 Rt Fit). unfold load_schema_decoded. rewrite NA. cbn [fst]. now rewrite X.
  - intros fs2 v2 F2 I2 O2. destruct (Kw wb1) as (wb2 & Op2 & Rd2). destruct (B wb2 Rd2) as (s2 & Im2 & B1 & B2 & B3 & G).
    unfold run. rewrite needed_enough by (intros n [<-|[<-|[]]]; assumption).
    unfold action, import_xlsx_file. change (flag_string ImportXlsx v2 "input") with (given v2 "input").
    change (flag_string ImportXlsx v2 "output") with (given v2 "output"). rewrite F2, Op2, Im2. unfold save_schema.
    assert (Pm : Permutation (s_tables s2) (s_tables s')).
    { apply (permutation_by_key t_group). intros n. rewrite G. rewrite <- (map_id (filter _ (s_tables s'))) at 2. apply map_ext_in. intros t T.
      apply filter_In in T as [T _]. apply settled_table_same. apply Forall_forall. intros c C. apply Rd. unfold columns_of. apply in_flat_map. eauto. }
    assert (N2 : normalize (w_sort w) s2 = (s', None)).
    { rewrite <- NA. unfold normalize. rewrite <- (sort_same (w_sort w) s' s2 Hs); [|split; [symmetry; exact Pm|auto]|exact D'].
      destruct (normalize_tables _) as [tx e]. unfold with_tables. now rewrite B1, B2, B3. }
    assert (T2 : to_text (w_sort w) s2 = Some file) by (rewrite <- Tt; unfold to_text, to_json; now rewrite N2, N).
    now rewrite T2.
Qed.
