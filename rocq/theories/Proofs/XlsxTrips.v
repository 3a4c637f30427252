(** What is read from a workbook can be written to one and read again (C110) *)
From Coq Require Import String Ascii List NArith Bool Arith Lia Sorting.Permutation.
From Verif.Model Require Import GoString Util Octopus Common Xlsx.
From Verif.Spec Require Import Text Order OctopusSpec XlsxSpec BookSpec DiffSpec JsonSpec.
From Verif.Proofs Require Import StringLemmas ListLemmas UtilProofs TypeProofs OctopusProofs XlsxText XlsxProofs XlsxRound XlsxFacts JsonTextProofs StarDocProofs.
Import ListNotations.
Local Open Scope string_scope.

(** ** Invariants of reading *)

Definition keeps_rows (g : string) (Q : table -> Prop) (rows : list (list string)) : Prop :=
  (forall r, In r rows -> cell r 0 <> "" -> Q (mkTable (cell r 0) [] (cell r 6) g (attr_get (parse_attributes (cell r 5)) "class") [])) /\
  (forall r t, In r rows -> Q t -> cell r 1 <> "" -> Q (add_index_column t (cell r 0) (cell r 1))) /\
  (forall r nn t, In r rows -> Q t -> cell r 1 <> "" -> cell r 2 <> "table" -> Q (add_column t (read_column nn r))).
Lemma keeps_tail : forall g Q r rows, keeps_rows g Q (r :: rows) -> keeps_rows g Q rows.
Proof. intros g Q r rows (A & B & C). repeat split; intros; [apply A|apply B|apply C]; auto; now right. Qed.
Lemma read_rows_inv : forall g (Q : table -> Prop) nn rows k ts last r, keeps_rows g Q rows ->
  Forall Q (ts ++ opt_list last)%list -> read_rows g nn k rows ts last = inl r -> Forall Q r.
Proof.
  intros g Q nn. induction rows as [|x rows IH]; intros k ts last r K F E.
  - rewrite read_rows_nil in E. injection E as <-. exact F.
  - rewrite read_rows_cons in E. pose proof (keeps_tail _ _ _ _ K) as K'. destruct K as (A & B & C).
    destruct (String.eqb_spec (cell x 2) "table") as [T|T].
    { destruct (String.eqb_spec (cell x 0) "") as [Z|Z]; [discriminate|]. revert E. apply IH; [exact K'|].
      apply Forall_app. split; [exact F|]. constructor; [|constructor]. apply A; [now left|exact Z]. }
    destruct last as [t0|]; [|revert E; now apply IH].
    destruct (String.eqb_spec (cell x 1) "") as [N|N]; [revert E; now apply IH|].
    apply Forall_app in F as [F1 F2]. inversion F2 as [|? ? Q0 _]; subst.
    destruct (String.eqb (cell x 3) "I"); revert E; apply IH; try exact K'; apply Forall_app; (split; [exact F1|]);
      (constructor; [|constructor]).
    + apply B; auto. now left.
    + apply C; auto. now left.
Qed.
Lemma group_sheet_cells : forall wb g rows r, group_sheet wb g = rows -> In r rows -> exists sh, In sh wb /\ fst sh = g /\ In r (snd sh).
Proof.
  intros wb g rows r <- R. unfold group_sheet in R. destruct (alist_find (rev wb) g) as [x|] eqn:E; [|destruct R].
  apply alist_find_in in E. apply in_rev in E. exists (g, x). auto.
Qed.
Lemma group_names_in : forall wb n, In n (group_names wb) -> n <> "Meta" /\ exists sh, In sh wb /\ fst sh = n.
Proof.
  intros wb n. unfold group_names.
  assert (G : forall l acc, In n (fold_left (fun ks sh => if String.eqb (fst sh) "Meta" then ks else ss_add ks (fst sh)) l acc) ->
    In n acc \/ (n <> "Meta" /\ exists sh : string * list (list string), In sh l /\ fst sh = n)).
  { induction l as [|sh l IH]; intros acc I; [now left|]. cbn [fold_left] in I. apply IH in I as [I|[N (sh' & I & E)]].
    - destruct (String.eqb_spec (fst sh) "Meta") as [M|M]; [now left|]. unfold ss_add in I. destruct (ss_contains acc (fst sh)); [now left|].
      apply in_app_iff in I as [I|[<-|[]]]; [now left|]. right. split; [exact M|]. exists sh. split; [now left|reflexivity].
    - right. split; [exact N|]. exists sh'. split; [now right|exact E]. }
  intros I. apply G in I as [[]|I]. exact I.
Qed.
Lemma read_sheets_inv : forall wb (Q : string -> table -> Prop) gs acc ts,
  (forall g, In g gs -> keeps_rows g (Q g) (group_sheet wb g)) -> read_sheets wb gs acc = inl ts ->
  forall t, In t ts -> In t acc \/ exists g, In g gs /\ Q g t.
Proof.
  intros wb Q. induction gs as [|g gs IH]; intros acc ts K E t T; cbn [read_sheets] in E.
  - injection E as <-. now left.
  - destruct (read_group_sheet g (group_sheet wb g)) as [x|] eqn:RG; [|discriminate].
    assert (X : forall t', In t' x -> Q g t').
    { specialize (K g (or_introl eq_refl)). unfold read_group_sheet in RG. destruct (group_sheet wb g) as [|h rows]; [injection RG as <-; intros ? []|].
      intros t' T'. assert (F := read_rows_inv g (Q g) _ rows 1 [] None x (keeps_tail _ _ _ _ K) (Forall_nil _) RG). rewrite Forall_forall in F. auto. }
    destruct (IH _ _ (fun g' I => K g' (or_intror I)) E t T) as [I|(g' & I & J)].
    + apply in_app_iff in I as [I|I]; [now left|]. right. exists g. split; [now left|auto].
    + right. exists g'. split; [now right|exact J].
Qed.
(** a property of every table, from the sheets of the workbook *)
Lemma import_inv : forall ord wb (Q : string -> table -> Prop) s, iteration_order ord ->
  (forall sh rows, In sh wb -> fst sh <> "Meta" -> (forall r, In r rows -> exists sh', In sh' wb /\ In r (snd sh')) -> keeps_rows (fst sh) (Q (fst sh)) rows) ->
  import_xlsx ord wb = inl s -> forall t, In t (s_tables s) -> exists sh, In sh wb /\ fst sh <> "Meta" /\ Q (fst sh) t.
Proof.
  intros ord wb Q s O K E t T. unfold import_xlsx in E. destruct (read_sheets wb (ord (group_names wb)) []) as [ts|] eqn:R; [|discriminate].
  injection E as <-. cbn [s_tables] in T.
  destruct (read_sheets_inv wb Q (ord (group_names wb)) [] ts) with (t := t) as [[]|(g & I & J)]; try assumption.
  - intros g G. apply (Permutation_in _ (O _)) in G. apply group_names_in in G as [N (sh & I & <-)]. apply K; auto.
    intros r Rr. destruct (group_sheet_cells wb (fst sh) _ r eq_refl Rr) as (sh' & S1 & _ & S2). eauto.
  - apply (Permutation_in _ (O _)) in I. apply group_names_in in I as [N (sh & I & <-)]. eauto.
Qed.

(** ** What the cells give *)

Lemma cell_trimmed : forall r i, trimmed (cell r i).
Proof. intros r i. unfold cell. destruct (trim_split (get_cell_value r i)) as (_ & _ & _ & _ & T & _). exact T. Qed.
Lemma ends_app : forall a b, ends_blank b -> ends_blank (a ++ b).
Proof. intros a b (r & c & -> & B). exists (a ++ r), c. split; [now rewrite app_assoc_s|exact B]. Qed.
Lemma attr_get_value : forall x k, attr_value (attr_get (parse_attributes x) k).
Proof.
  intros x k. assert (Z : attr_value "") by (split; [intros []|apply no_ends_nil]).
  unfold attr_get. destruct (alist_find (parse_attributes x) k) as [v|] eqn:E; [|exact Z].
  apply alist_find_in in E. apply in_parse in E. apply in_map_iff in E as (a & E & I). apply split_char_clean in I.
  unfold attr_entry in E. destruct (trim_split a) as (l & r & _ & _ & [_ T] & S).
  assert (C : ~ char_in "," (trim_space a)).
  { intros X. apply I. rewrite S. rewrite !char_in_app. auto. }
  destruct (split_once "=" (trim_space a)) as [k' [v'|]] eqn:SO.
  - injection E as -> ->. apply split_once_some in SO as [SO _]. rewrite SO in *. split.
    + intros X. apply C. rewrite char_in_app. right. now right.
    + intros X. apply T. apply ends_app. apply (ends_app (String "=" "")) in X. exact X.
  - injection E as -> <-. split; [intros X; cbn in X; intuition discriminate|]. exact (ends_snoc "tru" "e" eq_refl).
Qed.
Lemma reference_fit : forall x r, trimmed x -> parse_reference x = Some r -> fit_reference r.
Proof.
  intros x r [T1 T2] E. unfold parse_reference in E. destruct (String.eqb x ""); [discriminate|].
  destruct (split_char "." x) as [|a [|b [|c l]]] eqn:S; try discriminate.
  destruct (String.eqb_spec a ""); [discriminate|]. destruct (String.eqb_spec b ""); [discriminate|]. cbn [orb] in E. injection E as <-.
  assert (J : x = a ++ "." ++ b) by (rewrite <- (split_char_join "." x), S; reflexivity).
  unfold fit_reference. cbn [ref_table ref_column ref_rel]. repeat (split; [assumption|]).
  split; [apply (split_char_clean "." x); rewrite S; now left|]. split; [apply (split_char_clean "." x); rewrite S; right; now left|].
  split; [|split; [|reflexivity]].
  - intros (d & y & -> & B). apply T1. exists d, (y ++ "." ++ b). subst x. auto.
  - intros X. apply T2. rewrite J. now repeat apply ends_app.
Qed.

Lemma span_split : forall f s a r, span f s = (a, r) -> s = a ++ r /\ string_forallb f a = true.
Proof.
  induction s as [|c s IH]; intros a r H; cbn in H; [inversion H; auto|].
  destruct (f c) eqn:F; [|inversion H; auto]. destruct (span f s) as [x y] eqn:E. inversion H; subst. destruct (IH _ _ eq_refl) as [-> X].
  cbn. now rewrite F, X.
Qed.
Lemma match_at_letters : forall s n a b, match_type_at s = Some (n, a, b) -> n <> "" /\ string_forallb is_letter n = true.
Proof.
  intros s n a b. unfold match_type_at. destruct (span is_letter s) as [m r] eqn:E. apply span_split in E as [_ E].
  repeat match goal with |- context [match ?x with _ => _ end] => destruct x end; intros X; inversion X; subst; split; auto; discriminate.
Qed.
Lemma match_letters : forall s n a b, match_type s = Some (n, a, b) -> n <> "" /\ string_forallb is_letter n = true.
Proof.
  induction s as [|c s IH]; intros n a b; cbn [match_type].
  - destruct (match_type_at "") as [[[? ?] ?]|] eqn:E; [|discriminate]. intros X. injection X as <- <- <-. exact (match_at_letters _ _ _ _ E).
  - destruct (match_type_at (String c s)) as [[[? ?] ?]|] eqn:E; [|apply IH]. intros X. injection X as <- <- <-. exact (match_at_letters _ _ _ _ E).
Qed.
Lemma letter_no_space : forall c, is_letter c = true -> is_space c = false.
Proof. intros [[|] [|] [|] [|] [|] [|] [|] [|]] H; solve [reflexivity|discriminate H]. Qed.
Lemma letters_no_space : forall s, string_forallb is_letter s = true -> string_forallb (fun c => negb (is_space c)) s = true.
Proof.
  induction s as [|c s IH]; [reflexivity|]. cbn. intros H. apply andb_true_iff in H as [A B]. rewrite (letter_no_space c A), IH; auto.
Qed.
Lemma letters_no_paren : forall s, string_forallb is_letter s = true -> ~ char_in "(" s.
Proof. intros s H X. pose proof (forallb_char_in _ _ _ H X) as Y. discriminate Y. Qed.
Lemma type_fit : forall x c, trimmed x -> x <> "table" -> parse_type x = (c_type c, c_size c, c_scale c) -> steady_type c -> fit_type c.
Proof.
  intros x c T N P St. unfold fit_type. unfold parse_type in P. destruct (match_type x) as [[[n a] b]|] eqn:M.
  - apply match_letters in M as [NE L]. injection P as P1 P2 P3. rewrite P1 in *. 
    assert (B1 : (c_size c < 65536)%N) by (rewrite <- P2; unfold u16; apply N.mod_lt; discriminate).
    assert (B2 : (c_scale c < 65536)%N) by (rewrite <- P3; unfold u16; apply N.mod_lt; discriminate).
    assert (F : trimmed (col_format c)).
    { apply no_space_trimmed. unfold col_format. destruct (N.eqb (c_size c) 0); [now apply letters_no_space|].
      destruct (N.eqb (c_scale c) 0); rewrite !forallb_app_s, !(letters_no_space _ L), ?(digit_no_space _ (itoa_digits _)); reflexivity. }
    destruct (N.eq_dec (c_size c) 0) as [Z|Z].
    + destruct (St Z) as [S1 S2]. split; [|split; [exact F|]].
      * rewrite Z, S1. apply parse_format_plain; [now apply letters_no_paren|exact Z].
      * unfold col_format. rewrite Z. exact S2.
    + split; [now apply parse_format_letters|]. split; [exact F|].
      unfold col_format. apply N.eqb_neq in Z. rewrite Z. intros X.
      assert (Y : char_in "(" "table") by (rewrite <- X; destruct (N.eqb (c_scale c) 0); rewrite char_in_app; right; now left).
      cbn in Y. intuition discriminate.
  - injection P as P1 P2 P3. assert (E : col_format c = x) by (unfold col_format; now rewrite <- P2, <- P1).
    rewrite E. split; [|auto]. unfold parse_type. rewrite M. congruence.
Qed.

(** ** Tables *)

(** a column read from cells: all that is needed, and the type comes from a cell *)
Definition from_cells (c : column) : Prop :=
  c_name c <> "" /\ trimmed (c_name c) /\
  (exists x, trimmed x /\ x <> "table" /\ parse_type x = (c_type c, c_size c, c_scale c)) /\
  trimmed (c_desc c) /\ (c_pk c = true -> c_uq c = false) /\ attr_value (c_default c) /\ c_values c = [] /\
  (forall r, c_ref c = Some r -> fit_reference r).
Definition cells_table (g : string) (t : table) : Prop :=
  t_group t = g /\ t_name t <> "" /\ trimmed (t_name t) /\ trimmed (t_desc t) /\ attr_value (t_class t) /\
  Forall from_cells (t_cols t) /\ Forall plain_index (t_indices t) /\ NoDup (map ix_name (t_indices t)).
Lemma cells_fit : forall c, from_cells c -> steady_type c -> fit_column c.
Proof.
  intros c (A & B & (x & X1 & X2 & X3) & C) S. split; [exact A|]. split; [exact B|]. split; [exact (type_fit x c X1 X2 X3 S)|exact C].
Qed.
Lemma read_column_fields : forall nn r, cell r 1 <> "" -> cell r 2 <> "table" -> from_cells (read_column nn r).
Proof.
  intros nn r N T. unfold read_column. fold (cell r 0) (cell r 1) (cell r 2) (cell r 3) (cell r 4) (cell r 5) (cell r 6).
  destruct (parse_type (cell r 2)) as [[ty n] s] eqn:P. unfold from_cells.
  cbn [c_name c_type c_desc c_size c_scale c_pk c_uq c_default c_values c_ref].
  split; [exact N|]. split; [apply cell_trimmed|]. split; [exists (cell r 2); split; [apply cell_trimmed|auto]|].
  split; [apply cell_trimmed|]. split; [|split; [apply attr_get_value|split; [reflexivity|]]].
  - intros H. apply String.eqb_eq in H. now rewrite H.
  - intros rf H. exact (reference_fit _ _ (cell_trimmed r 0) H).
Qed.
Lemma index_by_name_some : forall ixs n i, index_by_name ixs n = Some i -> In n (map ix_name ixs).
Proof.
  induction ixs as [|x ixs IH]; intros n i E; [discriminate|]. cbn in E. destruct (String.eqb_spec (ix_name x) n) as [X|X]; [now left|].
  right. eauto.
Qed.
Lemma index_by_name_absent : forall ixs n, index_by_name ixs n = None -> ~ In n (map ix_name ixs).
Proof.
  induction ixs as [|x ixs IH]; intros n E; [intros []|]. cbn in E. destruct (String.eqb_spec (ix_name x) n) as [X|X]; [discriminate|].
  intros [I|I]; [contradiction|exact (IH n E I)].
Qed.
Lemma index_add_names : forall ixs n col, map ix_name (index_add_column ixs n col) = map ix_name ixs.
Proof.
  induction ixs as [|x ixs IH]; intros n col; [reflexivity|]. cbn [index_add_column]. destruct (String.eqb_spec (ix_name x) n) as [X|X].
  - cbn [map ix_name]. now rewrite X.
  - cbn [map]. now rewrite IH.
Qed.
Lemma index_add_plain : forall ixs n col, Forall plain_index ixs -> trimmed n -> col <> "" -> trimmed col ->
  Forall plain_index (index_add_column ixs n col).
Proof.
  intros ixs n col F Tn N Tc. induction F as [|x ixs (A & B & C) F IH]; [constructor|]. cbn [index_add_column].
  destruct (String.eqb_spec (ix_name x) n) as [X|X]; constructor; auto; [|split; auto].
  split; [exact Tn|]. cbn [ix_cols]. split; [destruct (ix_cols x); discriminate|]. apply Forall_app. auto.
Qed.
Lemma cells_keep : forall g rows, keeps_rows g (cells_table g) rows.
Proof.
  intros g rows. split; [|split].
  - intros r _ N. repeat split; cbn; try (apply cell_trimmed); try exact N; try apply attr_get_value; try constructor.
  - intros r t _ (A & B & C & D & E & F & G & H) N. unfold add_index_column.
    destruct (index_by_name (t_indices t) (cell r 0)) as [i|] eqn:Ix; unfold cells_table, with_indices;
      cbn [t_group t_name t_desc t_class t_cols t_indices]; repeat (split; [assumption|]).
    + split; [apply index_add_plain; auto; apply cell_trimmed|]. now rewrite index_add_names.
    + split.
      * apply Forall_app. split; [exact G|]. constructor; [|constructor]. split; [apply cell_trimmed|]. cbn [ix_cols].
        split; [discriminate|]. constructor; [|constructor]. split; [exact N|apply cell_trimmed].
      * rewrite map_app. cbn [map ix_name]. apply NoDup_snoc; [exact H|]. exact (index_by_name_absent _ _ Ix).
  - intros r nn t _ (A & B & C & D & E & F & G & H) N T. unfold add_column, cells_table, with_cols.
    cbn [t_group t_name t_desc t_class t_cols t_indices]. repeat (split; [assumption|]). split; [|auto].
    apply Forall_app. split; [exact F|]. constructor; [|constructor]. now apply read_column_fields.
Qed.
Lemma import_tables : forall ord wb s, iteration_order ord -> import_xlsx ord wb = inl s ->
  forall t, In t (s_tables s) -> cells_table (t_group t) t /\ t_group t <> "Meta" /\ exists sh, In sh wb /\ fst sh = t_group t.
Proof.
  intros ord wb s O E t T. destruct (import_inv ord wb cells_table s O) with (t := t) as (sh & I & N & Q); auto.
  - intros sh rows _ _ _. apply cells_keep.
  - pose proof Q as (G & _). rewrite G. repeat split; auto; try (apply Q). eauto.
Qed.

(** ** The trip *)

Lemma settled_steady : forall c, steady_type c -> steady_type (settled_column c).
Proof. intros c H. exact H. Qed.
Lemma settled_twice : forall c, settled_column (settled_column c) = settled_column c.
Proof.
  intros [nm ty ds sz sc nn pk uq ai df ou vs rf]. unfold settled_column. cbn [c_name c_type c_desc c_size c_scale c_notnull c_pk c_uq c_autoinc c_default c_onupdate c_values c_ref].
  f_equal. destruct ou; [reflexivity|]. destruct df; reflexivity.
Qed.
Lemma settled_same : forall c, settled c -> settled_column c = c.
Proof.
  intros [nm ty ds sz sc nn pk uq ai df ou vs rf]. unfold settled, settled_column. cbn. intros [-> | ->]; [reflexivity|]. destruct df; reflexivity.
Qed.
Lemma settled_table_twice : forall t, settled_table (settled_table t) = settled_table t.
Proof.
  intros [n cs d g k ix]. unfold settled_table. cbn [t_name t_cols t_desc t_group t_class t_indices]. f_equal.
  rewrite map_map. apply map_ext. apply settled_twice.
Qed.
Lemma settled_table_same : forall t, Forall settled (t_cols t) -> settled_table t = t.
Proof.
  intros [n cs d g k ix] F. unfold settled_table. cbn [t_name t_cols t_desc t_group t_class t_indices] in *. f_equal.
  rewrite <- (map_id cs) at 2. apply map_ext_in. intros c C. rewrite Forall_forall in F. now apply settled_same, F.
Qed.

Lemma documented_same : forall g, g <> "" -> documented_sheet g = g.
Proof. intros g N. destruct g; [contradiction|reflexivity]. Qed.
Lemma fit_trip : forall name_ok un ord s, iteration_order ord -> name_ok "Meta" = true ->
  (forall t, In t (s_tables s) -> t_group t <> "" /\ t_group t <> "Meta" /\ name_ok (t_group t) = true) ->
  Forall fit_table (s_tables s) ->
  exists wb1, export_xlsx name_ok un s = Some wb1 /\
  forall wb2, reads_as wb1 wb2 ->
  exists s', import_xlsx ord wb2 = inl s' /\
    s_author s' = s_author s /\ s_name s' = s_name s /\ s_version s' = s_version s /\
    forall g, filter (fun t => String.eqb (t_group t) g) (s_tables s') =
              map settled_table (filter (fun t => String.eqb (t_group t) g) (s_tables s)).
Proof.
  intros name_ok un ord s O M G F. destruct (roundtrip_fit name_ok un ord s O) as (wb1 & X & B); [|exact F|].
  - split; [exact M|]. split.
    + intros t T. destruct (G t T) as (A & B & C). rewrite documented_same; auto.
    + intros t t' T T'. rewrite !documented_same by (apply G; assumption). auto.
  - exists wb1. split; [exact X|]. intros wb2 R. destruct (B wb2 R) as (s' & I & A1 & A2 & A3 & A4). exists s'.
    repeat (split; [assumption|]). intros g. rewrite A4. unfold tables_on.
    assert (E : filter (fun t => String.eqb (documented_sheet (t_group t)) g) (s_tables s) = filter (fun t => String.eqb (t_group t) g) (s_tables s)).
    { apply filter_ext_in. intros t T. now rewrite documented_same by (apply G; assumption). }
    rewrite E. apply map_ext_in. intros t T. apply filter_In in T as [_ T]. apply String.eqb_eq in T. subst g. reflexivity.
Qed.
Lemma books_trip : forall name_ok un ord ord' wb s, iteration_order ord -> iteration_order ord' ->
  name_ok "Meta" = true -> (forall sh, In sh wb -> fst sh <> "" /\ name_ok (fst sh) = true) ->
  import_xlsx ord wb = inl s -> (forall c, In c (columns_of s) -> steady_type c) ->
  exists wb1, export_xlsx name_ok un s = Some wb1 /\
  forall wb2, reads_as wb1 wb2 ->
  exists s', import_xlsx ord' wb2 = inl s' /\
    s_author s' = s_author s /\ s_name s' = s_name s /\ s_version s' = s_version s /\
    forall g, filter (fun t => String.eqb (t_group t) g) (s_tables s') =
              map settled_table (filter (fun t => String.eqb (t_group t) g) (s_tables s)).
Proof.
  intros name_ok un ord ord' wb s O O' M N E S. apply fit_trip; auto.
  - intros t T. destruct (import_tables _ _ _ O E t T) as (_ & A & sh & I & Eg). destruct (N sh I) as [N1 N2]. rewrite Eg in N1, N2. auto.
  - apply Forall_forall. intros t T. destruct (import_tables _ _ _ O E t T) as ((_ & A & B & C & D & F & G) & _).
    repeat (split; [assumption|]). split; [|exact G]. apply Forall_forall. intros c C'. rewrite Forall_forall in F.
    apply cells_fit; [auto|]. apply S. unfold columns_of. apply in_flat_map. eauto.
Qed.
(** and after that nothing changes any more *)
Lemma books_settle : forall name_ok un ord ord' wb s, iteration_order ord -> iteration_order ord' ->
  name_ok "Meta" = true -> (forall sh, In sh wb -> fst sh <> "" /\ name_ok (fst sh) = true) ->
  import_xlsx ord wb = inl s -> (forall c, In c (columns_of s) -> steady_type c /\ settled c) ->
  exists wb1, export_xlsx name_ok un s = Some wb1 /\
  forall wb2, reads_as wb1 wb2 ->
  exists s', import_xlsx ord' wb2 = inl s' /\
    s_author s' = s_author s /\ s_name s' = s_name s /\ s_version s' = s_version s /\
    forall g, filter (fun t => String.eqb (t_group t) g) (s_tables s') = filter (fun t => String.eqb (t_group t) g) (s_tables s).
Proof.
  intros name_ok un ord ord' wb s O O' M N E S.
  destruct (books_trip name_ok un ord ord' wb s O O' M N E) as (wb1 & X & B); [intros c C; apply S; exact C|].
  exists wb1. split; [exact X|]. intros wb2 R. destruct (B wb2 R) as (s' & I & A1 & A2 & A3 & A4). exists s'.
  repeat (split; [assumption|]). intros g. rewrite A4. rewrite <- (map_id (filter _ _)) at 2. apply map_ext_in. intros t T.
  apply filter_In in T as [T _]. apply settled_table_same. apply Forall_forall. intros c C. apply S. unfold columns_of. apply in_flat_map. eauto.
Qed.
