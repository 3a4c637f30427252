(** Workbooks written as documented: lemmas for C94 *)
From Coq Require Import String Ascii List NArith Bool Lia Sorting.Permutation.
From Verif.Model Require Import GoString Util Octopus Common Json JsonText Xlsx Cli.
From Verif.Spec Require Import Text OctopusSpec JsonSpec CliSpec DiffSpec FormatSpec StabilitySpec XlsxSpec XlsxDocSpec.
From Verif.Proofs Require Import StringLemmas ListLemmas TypeProofs OctopusProofs XlsxText XlsxProofs XlsxNull XlsxRound XlsxFacts
  JsonTextProofs CliLoad CliImports OrderProofs.
Import ListNotations.
Local Open Scope string_scope.

Lemma cell_read : forall r i x, cell_is r i x -> cell r i = x.
Proof. intros r i x (T & a & b & A & B & E). unfold cell, get_cell_value. rewrite E. now apply trim_attr. Qed.
Lemma blank_read : forall r i, blank_row r -> cell r i = "".
Proof.
  intros r i H. apply cell_read. split; [split; [apply no_starts_nil|apply no_ends_nil]|].
  exists (nth i r ""), "". split; [apply H|]. split; [intros c []|]. cbn. now rewrite !app_nil_r_s.
Qed.

(** ** Types *)
Lemma letters_checked : forall s, all_chars (fun c => is_letter c = true) s -> string_forallb is_letter s = true.
Proof. intros s H. now apply all_letters_iff. Qed.
Lemma type_read : forall text ty n m, type_text text ty n m -> parse_type text = (ty, n, m) /\ text <> "table".
Proof.
  intros text ty n m H. destruct H as [ty N T H|ty n N H F|ty n m N H F F'].
  - split; [|exact T]. unfold parse_type. rewrite match_type_no_paren; [reflexivity|]. intros C. specialize (H _ C). now destruct H.
  - split.
    + pose proof (match_type_form ty (itoa n) "" "" "" N (letters_checked _ H) (itoa_nonempty _) (itoa_digits _) eq_refl eq_refl (fun H => H)) as M.
      cbn [append] in M. unfold parse_type. cbn [append]. rewrite M. now rewrite atoi_itoa.
    + intros E. assert (C : char_in "(" "table") by (rewrite <- E; apply char_in_app; right; now left). cbn in C. intuition discriminate.
  - split.
    + pose proof (match_type_form ty (itoa n) "," (itoa m) "" N (letters_checked _ H) (itoa_nonempty _) (itoa_digits _) eq_refl (itoa_digits _)
        (fun _ => ltac:(discriminate))) as M.
      cbn [append] in M. unfold parse_type. cbn [append]. rewrite M. now rewrite !atoi_itoa.
    + intros E. assert (C : char_in "(" "table") by (rewrite <- E; apply char_in_app; right; now left). cbn in C. intuition discriminate.
Qed.

(** ** Columns *)
Definition spelled (sp : spelling) (c : column) : Prop := sp = Documented -> c_ref c = None /\ c_autoinc c = false.
Lemma value_read : forall make l v g, attribute_value make l v -> (forall x, In (make x) l -> g = x) ->
  ((forall x, ~ In (make x) l) -> g = "") -> g = v.
Proof. intros make l v g [I|(-> & N)] H Z; auto. Qed.
Lemma word_plain : forall sp, autoinc_word sp = "autoinc" \/ autoinc_word sp = "autoInc".
Proof. intros []; cbn; auto. Qed.
Lemma absent_read : forall sp l cell key make, doc_cell (autoinc_word sp) l cell -> doc_attrs_ok l ->
  (key = "default" /\ make = DDefault \/ key = "onUpdate" /\ make = DOnUpdate \/ key = "class" /\ make = DClass) ->
  (forall x, ~ In (make x) l) -> attr_get (parse_attributes (trim_space cell)) key = "".
Proof.
  intros sp l c key make D (F & _) K N.
  assert (W : plain_word (autoinc_word sp)).
  { destruct sp; [|exact autoInc_word]. split; [discriminate|]. split; [|split; [|]]; try (cbn; intuition discriminate).
    split; [apply starts_app; reflexivity|exact (ends_snoc "autoin" "c" eq_refl)]. }
  apply attr_get_absent. intros w I.
  apply (doc_cell_in (autoinc_word sp) l) in I; auto.
  - destruct I as (a & A & E). destruct K as [[-> ->]|[[-> ->]|[-> ->]]]; destruct a; cbn [doc_entry] in E; try (exact (N _ A)); try (destruct sp; discriminate E); try discriminate E;
      injection E as ->; exact (N _ A).
  - now apply doc_cell_trim.
  - destruct K as [[-> _]|[[-> _]|[-> _]]]; discriminate.
Qed.
Lemma working_reference : forall r text, reference_names r -> reference_cell Working r text -> parse_reference text = Some r.
Proof.
  intros r text (A & B & C & D & E & F & S) (-> & R). apply reference_read, plain_reference_fit. repeat split; auto.
  - intros x. exact (S OneToMany x).
  - intros x. exact (S OneToOne x).
Qed.
Lemma column_row_read : forall sp nn r c, doc_column_row sp nn r c -> spelled sp c -> read_column nn r = c.
Proof.
  intros sp nn r c (N & C1 & (text & C2 & T) & K & O & (l & (AD & AO) & AI & AV & AU) & C6 & R & V) SP.
  unfold read_column. fold (cell r 0) (cell r 1) (cell r 2) (cell r 3) (cell r 4) (cell r 5) (cell r 6).
  rewrite (cell_read _ _ _ C1), (cell_read _ _ _ C2), (cell_read _ _ _ C6).
  destruct (type_read _ _ _ _ T) as [P _]. rewrite P.
  change (cell r 5) with (trim_space (nth 5 r "")).
  destruct (doc_cell_read (autoinc_word sp) l (nth 5 r "") (word_plain sp) AD AO) as [D1 [D2 [_ D4]]].
  assert (E1 : attr_get (parse_attributes (trim_space (nth 5 r ""))) "default" = c_default c).
  { apply (value_read DDefault l); auto. intros Z. eapply absent_read; eauto. }
  assert (E2 : attr_get (parse_attributes (trim_space (nth 5 r ""))) "onUpdate" = c_onupdate c).
  { apply (value_read DOnUpdate l); auto. intros Z. eapply absent_read; eauto 6. }
  assert (E3 : String.eqb (attr_get (parse_attributes (trim_space (nth 5 r ""))) "autoInc") "true" = c_autoinc c).
  { destruct sp.
    - destruct (SP eq_refl) as [_ X]. rewrite X. apply not_true_iff_false. intros Y.
      apply D4 in Y as [_ Y]. discriminate Y.
    - apply eq_true_iff_eq. rewrite D4, AI. cbn [autoinc_word]. tauto. }
  rewrite E1, E2, E3.
  assert (E4 : parse_reference (cell r 0) = c_ref c).
  { destruct R as [[C0 R]|(rf & tx & R & RN & RC & C0)]; rewrite (cell_read _ _ _ C0), R; [reflexivity|].
    destruct sp; [destruct (SP eq_refl) as [X _]; congruence|]. now apply working_reference. }
  rewrite E4. 
  assert (E5 : String.eqb (cell r 3) "P" = c_pk c /\ String.eqb (cell r 3) "U" = c_uq c).
  { destruct K as [(Q & -> & ->)|[(Q & -> & ->)|(Q & -> & ->)]]; rewrite (cell_read _ _ _ Q); split; reflexivity. }
  destruct E5 as [-> ->].
  assert (E6 : (if nn then negb (String.eqb (cell r 4) "") else String.eqb (cell r 4) "") = c_notnull c).
  { destruct O as [(Q & ->)|(Q & ->)]; rewrite (cell_read _ _ _ Q); destruct nn; reflexivity. }
  rewrite E6, <- V. now destruct c.
Qed.

(** ** Indices *)
Definition add_ix (ixs : list index) (n col : string) : list index :=
  match index_by_name ixs n with Some _ => index_add_column ixs n col | None => (ixs ++ [mkIdx n [col]])%list end.
Lemma add_index_is : forall t n col, add_index_column t n col = with_indices t (add_ix (t_indices t) n col).
Proof. intros t n col. unfold add_index_column, add_ix. destruct (index_by_name (t_indices t) n); reflexivity. Qed.
Definition first_names (ps : list (string * string)) : list string := rev (nodup string_dec (rev (map fst ps))).
Definition index_for (ps : list (string * string)) (n : string) : index :=
  mkIdx n (map snd (filter (fun p => String.eqb (fst p) n) ps)).
Lemma combined_is : forall ps ixs, combined ps ixs <-> ixs = map (index_for ps) (first_names ps).
Proof.
  intros ps ixs. unfold combined, first_names. split.
  - intros [E H]. rewrite <- E. rewrite map_map. rewrite <- map_id at 1. apply map_ext_in. intros i I.
    unfold index_for. rewrite <- (H i I). now destruct i.
  - intros ->. split; [rewrite map_map; cbn [index_for ix_name]; apply map_id|].
    intros i I. apply in_map_iff in I as (n & <- & _). reflexivity.
Qed.
Lemma by_name_names : forall f l n, (forall x, ix_name (f x) = x) -> (index_by_name (map f l) n = None <-> ~ In n l).
Proof.
  intros f l n F. induction l as [|x l IH]; [cbn; tauto|]. unfold index_by_name in *. cbn [map find]. rewrite F.
  destruct (String.eqb_spec x n) as [->|N]; cbn [In].
  - split; [discriminate|tauto].
  - rewrite IH. tauto.
Qed.
Lemma add_column_map : forall f g l n col, (forall x, ix_name (f x) = x) -> NoDup l -> In n l ->
  g n = mkIdx n (ix_cols (f n) ++ [col])%list -> (forall x, x <> n -> g x = f x) ->
  index_add_column (map f l) n col = map g l.
Proof.
  intros f g l n col F D I G H. induction l as [|x l IH]; [destruct I|]. cbn [map index_add_column]. rewrite F.
  apply NoDup_cons_iff in D as [NI D]. destruct (String.eqb_spec x n) as [->|N].
  - rewrite G. f_equal. apply map_ext_in. intros y Y. symmetry. apply H. intros ->. contradiction.
  - rewrite H by exact N. f_equal. apply IH; auto. destruct I as [->|I]; [congruence|exact I].
Qed.
Lemma add_combined : forall ps n col ixs, combined ps ixs -> combined (ps ++ [(n, col)])%list (add_ix ixs n col).
Proof.
  intros ps n col ixs H. apply combined_is in H. apply combined_is. subst ixs.
  assert (F : forall qs x, ix_name (index_for qs x) = x) by reflexivity.
  assert (NF : first_names (ps ++ [(n, col)]) = if in_dec string_dec n (rev (map fst ps)) then first_names ps else (first_names ps ++ [n])%list).
  { unfold first_names. rewrite map_app, rev_app_distr. cbn [map fst rev app nodup]. destruct (in_dec string_dec n (rev (map fst ps))); reflexivity. }
  assert (IN : In n (rev (map fst ps)) <-> In n (first_names ps)).
  { unfold first_names. rewrite <- (in_rev (nodup _ _)), nodup_In. apply iff_refl. }
  assert (OLD : forall x, x <> n -> index_for (ps ++ [(n, col)])%list x = index_for ps x).
  { intros x X. unfold index_for. rewrite filter_app. cbn [filter fst]. destruct (String.eqb_spec n x); [congruence|]. now rewrite app_nil_r. }
  assert (NEW : index_for (ps ++ [(n, col)])%list n = mkIdx n (ix_cols (index_for ps n) ++ [col])%list).
  { unfold index_for. rewrite filter_app. cbn [filter fst ix_cols]. rewrite String.eqb_refl, map_app. reflexivity. }
  unfold add_ix. rewrite NF. destruct (in_dec string_dec n (rev (map fst ps))) as [I|I].
  - destruct (index_by_name (map (index_for ps) (first_names ps)) n) eqn:E; [|apply by_name_names in E; [|apply F]; tauto].
    apply add_column_map; auto; [|tauto]. unfold first_names. apply NoDup_rev, NoDup_nodup.
  - destruct (index_by_name (map (index_for ps) (first_names ps)) n) eqn:E.
    + exfalso. apply I, IN. destruct (in_dec string_dec n (first_names ps)) as [J|J]; [exact J|].
      apply (by_name_names (index_for ps)) in J; [congruence|apply F].
    + rewrite map_app. cbn [map]. rewrite NEW. f_equal.
      * apply map_ext_in. intros x X. symmetry. apply OLD. intros ->. tauto.
      * do 2 f_equal. assert (Z : filter (fun p => String.eqb (fst p) n) ps = []).
        { clear - I. induction ps as [|[a b] ps IH]; [reflexivity|]. cbn [map fst rev] in I. cbn [filter fst].
          destruct (String.eqb_spec a n) as [->|]; [exfalso; apply I; apply in_or_app; right; now left|].
          apply IH. intros J. apply I. apply in_or_app. now left. }
        unfold index_for. cbn [ix_cols]. now rewrite Z.
Qed.
Lemma combined_unique : forall ps a b, combined ps a -> combined ps b -> a = b.
Proof. intros ps a b A B. apply combined_is in A. apply combined_is in B. congruence. Qed.
Lemma combined_nil : combined [] [].
Proof. apply combined_is. reflexivity. Qed.

(** ** Rows *)
Lemma rows_read : forall sp nn g rows cs ps, doc_rows sp nn rows cs ps -> Forall (spelled sp) cs ->
  forall k rest ts t done, combined done (t_indices t) -> exists k' ixs, combined (done ++ ps)%list ixs /\
    read_rows g nn k (rows ++ rest)%list ts (Some t) = read_rows g nn k' rest ts (Some (with_indices (with_cols t (t_cols t ++ cs)%list) ixs)).
Proof.
  intros sp nn g rows cs ps H. induction H as [|r rows cs ps B H IH|r c rows cs ps C H IH|r n col rows cs ps X H IH]; intros SP k rest ts t done D.
  - exists k, (t_indices t). split; [now rewrite app_nil_r|]. cbn [app]. rewrite app_nil_r. now destruct t.
  - destruct (IH SP (S k) rest ts t done D) as (k' & ixs & I & E). exists k', ixs. split; [exact I|]. cbn [app]. rewrite read_rows_cons.
    rewrite !(blank_read r) by exact B. cbn [String.eqb]. exact E.
  - inversion SP as [|? ? S1 S2]; subst.
    destruct (IH S2 (S k) rest ts (add_column t c) done D) as (k' & ixs & I & E). exists k', ixs. split; [exact I|]. cbn [app]. rewrite read_rows_cons.
    rewrite (column_row_read _ _ _ _ C S1). destruct C as (N & C1 & (text & C2 & T) & K & _).
    rewrite (cell_read _ _ _ C1), (cell_read _ _ _ C2). destruct (type_read _ _ _ _ T) as [_ NT].
    destruct (String.eqb_spec text "table"); [contradiction|]. destruct (String.eqb_spec (c_name c) ""); [contradiction|].
    replace (String.eqb (cell r 3) "I") with false by (destruct K as [(Q & _)|[(Q & _)|(Q & _)]]; rewrite (cell_read _ _ _ Q); reflexivity).
    rewrite E. unfold add_column, with_cols. cbn [t_cols t_name t_desc t_group t_class t_indices]. now rewrite <- app_assoc.
  - destruct (IH SP (S k) rest ts (add_index_column t n col) (done ++ [(n, col)])%list) as (k' & ixs & I & E).
    { rewrite add_index_is. cbn [with_indices t_indices]. now apply add_combined. }
    exists k', ixs. rewrite <- app_assoc in I. split; [exact I|]. cbn [app]. rewrite read_rows_cons.
    destruct X as (N0 & N1 & C0 & C1 & C2 & C3). rewrite (cell_read _ _ _ C0), (cell_read _ _ _ C1), (cell_read _ _ _ C2), (cell_read _ _ _ C3).
    destruct (String.eqb_spec col ""); [contradiction|]. cbn [String.eqb]. rewrite E, add_index_is. reflexivity.
Qed.
Lemma table_read : forall sp nn g rows t, doc_table sp nn rows t -> t_group t = g -> Forall (spelled sp) (t_cols t) ->
  forall k rest ts last, exists k', read_rows g nn k (rows ++ rest)%list ts last = read_rows g nn k' rest (ts ++ opt_list last)%list (Some t).
Proof.
  intros sp nn g rows t (first & more & ps & l & -> & N & C0 & C1 & C2 & C3 & C4 & (AD & AO) & AV & C6 & R & I) G SP k rest ts last.
  cbn [app]. rewrite read_rows_cons, (cell_read _ _ _ C0), (cell_read _ _ _ C2), (cell_read _ _ _ C6). cbn [String.eqb Ascii.eqb Bool.eqb].
  destruct (String.eqb_spec (t_name t) ""); [contradiction|].
  change (cell first 5) with (trim_space (nth 5 first "")).
  destruct (doc_cell_read (autoinc_word sp) l (nth 5 first "") (word_plain sp) AD AO) as [_ [_ [D3 _]]].
  assert (E1 : attr_get (parse_attributes (trim_space (nth 5 first ""))) "class" = t_class t).
  { apply (value_read DClass l); auto. intros Z. eapply absent_read; eauto 6. }
  rewrite E1.
  destruct (rows_read sp nn g more (t_cols t) ps R SP (S k) rest (ts ++ opt_list last)%list
    (mkTable (t_name t) [] (t_desc t) g (t_class t) []) [] combined_nil) as (k' & ixs & J & E).
  exists k'. rewrite E. rewrite (combined_unique _ _ _ J I). unfold with_indices, with_cols.
  cbn [t_name t_desc t_group t_class t_cols app]. rewrite <- G. now destruct t.
Qed.
Lemma tables_read : forall sp nn g blocks ts0, Forall2 (doc_table sp nn) blocks ts0 -> Forall (fun t => t_group t = g) ts0 ->
  Forall (fun t => Forall (spelled sp) (t_cols t)) ts0 ->
  forall k ts last, read_rows g nn k (concat blocks) ts last = inl (ts ++ opt_list last ++ ts0)%list.
Proof.
  intros sp nn g blocks ts0 H. induction H as [|b t blocks ts0 B H IH]; intros G SP k ts last.
  - cbn [concat]. rewrite read_rows_nil. now rewrite app_nil_r.
  - inversion G as [|? ? G1 G2]; subst. inversion SP as [|? ? S1 S2]; subst. cbn [concat].
    destruct (table_read sp nn (t_group t) b t B eq_refl S1 k (concat blocks) ts last) as (k' & E). rewrite E, IH by assumption.
    cbn [opt_list app]. now rewrite <- app_assoc.
Qed.
Lemma sheet_read : forall sp sh ts, doc_sheet sp sh ts -> Forall (fun t => Forall (spelled sp) (t_cols t)) ts ->
  read_group_sheet (fst sh) (snd sh) = inl ts.
Proof.
  intros sp [g rows] ts (h & nn & blanks & blocks & E & _ & _ & _ & _ & C4 & _ & _ & B & F & G) SP. cbn [fst snd] in *. subst rows.
  unfold read_group_sheet. fold (cell h 4). rewrite (cell_read _ _ _ C4).
  replace (String.eqb (if nn then "not null" else "nullable") "not null") with nn by (now destruct nn).
  generalize 1. induction B as [|r blanks B1 B2 IH]; intros k.
  - cbn [app]. rewrite (tables_read sp nn g blocks ts F G SP). reflexivity.
  - cbn [app]. rewrite read_rows_cons, !(blank_read r) by exact B1. cbn [String.eqb]. apply IH.
Qed.

(** ** Workbooks *)
Lemma meta_read : forall rows key v, key <> "" -> meta_value rows key v -> attr_get (read_meta_sheet rows) key = v.
Proof.
  intros rows key v N H. unfold read_meta_sheet.
  assert (G : forall m, attr_get (fold_left (fun m r => match r with [] => m | k :: _ => (k, get_cell_value r 1) :: m end) rows m) key =
     if existsb (fun r => String.eqb (nth 0 r "") key) rows
     then match find (fun r => String.eqb (nth 0 r "") key) (rev rows) with Some r => nth 1 r "" | None => "" end else attr_get m key).
  { clear H. induction rows as [|r rows IH] using rev_ind; intros m; [reflexivity|].
    rewrite fold_left_app. cbn [fold_left]. rewrite rev_app_distr, existsb_app. cbn [rev app find existsb].
    destruct r as [|k r].
    - cbn [nth]. destruct (String.eqb_spec "" key); [congruence|]. rewrite !orb_false_r. apply IH.
    - cbn [nth]. destruct (String.eqb_spec k key) as [->|NE].
      + rewrite orb_true_r. unfold attr_get. cbn [alist_find]. now rewrite String.eqb_refl.
      + rewrite !orb_false_r. rewrite <- IH. unfold attr_get. cbn [alist_find]. destruct (String.eqb_spec key k); [congruence|reflexivity]. }
  rewrite G. destruct (existsb _ rows) eqn:E.
  - apply existsb_exists in E as (r & I & Q). apply String.eqb_eq in Q.
    destruct H as [(_ & H)|(_ & H)]; [|destruct (H r I Q)].
    destruct (find _ (rev rows)) as [r'|] eqn:Fi.
    + apply find_some in Fi as [I' Q']. apply String.eqb_eq in Q'. apply in_rev in I'. now apply H.
    + exfalso. apply in_rev in I. apply (find_none _ _ Fi) in I. apply String.eqb_neq in I. contradiction.
  - destruct H as [((r & I & Q) & _)|(-> & _)]; [|reflexivity].
    exfalso. assert (X : existsb (fun r => String.eqb (nth 0 r "") key) rows = true).
    { apply existsb_exists. exists r. split; [exact I|]. now apply String.eqb_eq. }
    congruence.
Qed.
Lemma find_sheet : forall (wb : list (string * list (list string))) n rows, NoDup (map fst wb) -> In (n, rows) wb -> alist_find (rev wb) n = Some rows.
Proof.
  intros wb n rows D I. destruct (alist_find (rev wb) n) as [r|] eqn:E.
  - apply alist_find_in in E. apply in_rev in E. f_equal. 
    assert (X : (n, r) = (n, rows)); [|congruence]. clear - D I E.
    induction wb as [|[a b] wb IH]; [destruct I|]. cbn [map fst] in D. apply NoDup_cons_iff in D as [N D].
    destruct E as [E|E], I as [I|I]; auto.
    + congruence.
    + exfalso. apply N. injection E as -> _. apply in_map_iff. now exists (n, rows).
    + exfalso. apply N. injection I as -> _. apply in_map_iff. now exists (n, r).
  - exfalso. apply in_rev in I. exact (alist_find_none _ _ E _ I).
Qed.
Lemma names_of : forall (wb : list (string * list (list string))) ks, NoDup (ks ++ map fst wb)%list ->
  fold_left (fun ks sh => if String.eqb (fst sh) "Meta" then ks else ss_add ks (fst sh)) wb ks =
  (ks ++ filter (fun n => negb (String.eqb n "Meta")) (map fst wb))%list.
Proof.
  induction wb as [|[n rows] wb IH]; intros ks D; cbn [fold_left map fst filter]; [now rewrite app_nil_r|].
  cbn [map fst] in D. destruct (String.eqb n "Meta") eqn:E; cbn [negb].
  - apply IH. now apply NoDup_remove_1 in D.
  - unfold ss_add. assert (X : ss_contains ks n = false).
    { unfold ss_contains. apply str_in_false. intros I. apply NoDup_remove_2 in D. apply D. apply in_or_app. now left. }
    rewrite X. rewrite IH; [now rewrite <- app_assoc|]. now rewrite <- app_assoc.
Qed.
Lemma sheets_read : forall sp wb l tss, Forall2 (doc_sheet sp) l tss -> (forall sh, In sh l -> group_sheet wb (fst sh) = snd sh) ->
  Forall (fun t => Forall (spelled sp) (t_cols t)) (concat tss) -> forall acc, read_sheets wb (map fst l) acc = inl (acc ++ concat tss)%list.
Proof.
  intros sp wb l tss H. induction H as [|sh ts l tss S H IH]; intros G SP acc; cbn [map read_sheets concat]; [now rewrite app_nil_r|].
  cbn [concat] in SP. apply Forall_app in SP as [S1 S2]. rewrite G by (now left). rewrite (sheet_read sp sh ts S S1).
  rewrite IH; [now rewrite app_assoc| |exact S2]. intros x X. apply G. now right.
Qed.
Lemma workbook_read : forall sp wb s ord, doc_workbook sp wb s -> iteration_order ord -> (forall c, In c (columns_of s) -> spelled sp c) ->
  exists s1, import_xlsx ord wb = inl s1 /\ same_but_order s s1.
Proof.
  intros sp wb s ord (before & rows & after & ts1 & ts2 & E & D & (MA & MN & MV) & F1 & F2 & T) O SP.
  assert (GN : group_names wb = map fst (before ++ after)%list).
  { unfold group_names. rewrite names_of by exact D. cbn [app]. subst wb. rewrite map_app in D. cbn [map fst] in D.
    rewrite !map_app. cbn [map fst]. rewrite filter_app. cbn [filter String.eqb Ascii.eqb Bool.eqb negb].
    apply NoDup_remove_2 in D.
    assert (K : forall l : list string, ~ In "Meta" l -> filter (fun n => negb (String.eqb n "Meta")) l = l).
    { induction l as [|x l IH]; intros N; [reflexivity|]. cbn [filter]. destruct (String.eqb_spec x "Meta") as [->|]; [exfalso; apply N; now left|].
      cbn [negb]. f_equal. apply IH. intros X. apply N. now right. }
    rewrite !K; [reflexivity| |]; intros X; apply D; apply in_or_app; auto. }
  assert (GS : forall sh, In sh (before ++ after)%list -> group_sheet wb (fst sh) = snd sh).
  { intros [n r] I. unfold group_sheet. cbn [fst snd]. rewrite (find_sheet wb n r D); [reflexivity|].
    subst wb. apply in_app_or in I as [I|I]; apply in_or_app; [now left|right; now right]. }
  assert (MS : meta_sheet wb = Some rows).
  { unfold meta_sheet. apply find_sheet; [exact D|]. subst wb. apply in_or_app. right. now left. }
  assert (F : Forall2 (doc_sheet sp) (before ++ after) (ts1 ++ ts2)) by (now apply Forall2_app).
  assert (SPT : Forall (fun t => Forall (spelled sp) (t_cols t)) (concat (ts1 ++ ts2)%list)).
  { rewrite concat_app, <- T. apply Forall_forall. intros t I. apply Forall_forall. intros c C. apply SP. unfold columns_of. apply in_flat_map. eauto. }
  pose proof (sheets_read sp wb _ _ F GS SPT []) as R. cbn [app] in R. rewrite <- GN in R.
  unfold import_xlsx. rewrite MS.
  pose proof (sheets_perm wb _ _ (Permutation_sym (O (group_names wb)))) as P. rewrite R in P. unfold sheets_like in P.
  destruct (read_sheets wb (ord (group_names wb)) []) as [ts|]; [|contradiction].
  eexists. split; [reflexivity|]. rewrite (meta_read rows "author" (s_author s)), (meta_read rows "name" (s_name s)), (meta_read rows "version" (s_version s)) by (assumption || discriminate).
  split; [|auto]. cbn [s_tables]. rewrite T, <- concat_app. exact P.
Qed.
Lemma repaired_order : forall s s1 s', same_but_order s s1 -> schema_repaired s1 s' -> schema_repaired s s'.
Proof.
  intros s s1 s' (P & A & N & V) ((ts & Q & F) & S & R). split; [exists ts; split; [now rewrite Q|exact F]|]. split; [exact S|]. intuition congruence.
Qed.
Lemma strings_order : forall s s1, same_but_order s s1 -> schema_utf8 s -> schema_utf8 s1.
Proof.
  intros s s1 (P & A & N & V) U x X. apply U. unfold schema_strings in *. rewrite A, N, V.
  apply in_app_or in X. apply in_or_app. destruct X as [X|X]; [left; exact X|right]. apply in_flat_map in X as (t & T & X). apply in_flat_map. exists t. split; [|exact X].
  exact (Permutation_in _ (Permutation_sym P) T).
Qed.
Theorem xlsx_file_imported : forall w fs v text wb sp s, sorts_tables (w_sort w) -> iteration_order (w_ord_keys w) ->
  v "input" <> None -> v "output" <> None -> fs (given v "input") = Some text -> w_open_xlsx w text = Some wb ->
  doc_workbook sp wb s -> (sp = Documented -> forall c, In c (columns_of s) -> c_ref c = None /\ c_autoinc c = false) ->
  schema_utf8 s -> distinct_table_keys s -> (forall c, In c (columns_of s) -> repairable c) ->
  exists out, run w fs ImportXlsx v = ([(given v "output", out)], Done) /\
    forall fs' name, octopus_name name -> fs' name = Some out ->
      exists s', load_file w fs' name = Loaded s' /\ schema_repaired s s'.
Proof.
  intros w fs v text wb sp s Hs Ho I O F W D SP U K R.
  destruct (workbook_read sp wb s (w_ord_keys w) D Ho) as (s1 & E & SO); [intros c C X; exact (SP X c C)|].
  assert (R1 : forall c, In c (columns_of s1) -> repairable c).
  { intros c C. apply R. exact (columns_order s s1 c SO C). }
  assert (T : exists out, to_text (w_sort w) s1 = Some out) by (apply (saved_iff _ _ Hs); exact R1).
  destruct T as (out & T). exists out. split.
  - unfold run. assert (G : required_given ImportXlsx v = true).
    { unfold required_given. cbn. destruct (v "input"); [|congruence]. destruct (v "output"); [|congruence]. reflexivity. }
    rewrite G. cbn [action]. unfold import_xlsx_file.
    change (flag_string ImportXlsx v "input") with (given v "input"). change (flag_string ImportXlsx v "output") with (given v "output").
    rewrite F, W, E. unfold save_schema. now rewrite T.
  - intros fs' name On Fn.
    assert (K1 : distinct_table_keys s1).
    { unfold distinct_table_keys in *. refine (Permutation_NoDup _ K). apply Permutation_map. apply SO. }
    destruct (saved_loads w fs' name s1 _ Hs (xlsx_fits _ _ _ E) (strings_order _ _ SO U) K1 On T Fn) as (s' & Rep & L).
    exists s'. split; [exact L|]. exact (repaired_order _ _ _ SO Rep).
Qed.
