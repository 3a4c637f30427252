(** Export followed by import *)
From Coq Require Import String Ascii List NArith Bool Arith Lia Sorting.Permutation.
From Verif.Model Require Import GoString Util Octopus Common Xlsx.
From Verif.Spec Require Import Text Order OctopusSpec XlsxSpec BookSpec DiffSpec.
From Verif.Proofs Require Import StringLemmas ListLemmas UtilProofs TypeProofs OctopusProofs XlsxText XlsxProofs.
Import ListNotations.
Local Open Scope string_scope.

(** ** The attributes cell *)

Definition attrs_of (c : column) : list doc_attr :=
  ((if c_autoinc c then [DAutoinc] else []) ++
   (if String.eqb (c_default c) "" then [] else [DDefault (c_default c)]) ++
   (if String.eqb (c_onupdate c) "" then [] else [DOnUpdate (c_default c)]))%list.

Lemma autoInc_word : plain_word "autoInc".
Proof.
  split; [discriminate|]. split; [|split; no_char]. split.
  - apply starts_app. reflexivity.
  - exact (ends_snoc "autoIn" "c" eq_refl).
Qed.

Lemma attributes_text : forall c, column_attributes c = map (doc_attr_text "autoInc") (attrs_of c).
Proof.
  intros c. unfold column_attributes, attrs_of.
  destruct (c_autoinc c), (String.eqb (c_default c) ""), (String.eqb (c_onupdate c) ""); reflexivity.
Qed.

Lemma blank_nil : blank "".
Proof. intros c []. Qed.
Lemma blank_space : blank " ".
Proof. intros c [->|[]]. reflexivity. Qed.

Lemma join_cell : forall l, doc_cell "autoInc" l (join ", " (map (doc_attr_text "autoInc") l)).
Proof.
  assert (G : forall l p, blank p -> doc_cell "autoInc" l (p ++ join ", " (map (doc_attr_text "autoInc") l))).
  { induction l as [|a l IH]; intros p Hp.
    - cbn [map join]. rewrite app_nil_r_s. now constructor.
    - destruct l as [|b l].
      + cbn [map join]. assert (D := dc_one "autoInc" a p "" Hp blank_nil).
        now rewrite app_nil_r_s in D.
      + specialize (IH " " blank_space).
        assert (D := dc_more "autoInc" a p "" _ _ Hp blank_nil IH). exact D. }
  intros l. exact (G l "" blank_nil).
Qed.

Lemma join_trimmed : forall w l, plain_word w -> Forall (fun a => attr_value (doc_attr_value a)) l ->
  trimmed (join ", " (map (doc_attr_text w) l)).
Proof.
  intros w l W. induction l as [|a l IH]; intros F.
  - split; [apply no_starts_nil|apply no_ends_nil].
  - inversion F as [|? ? F1 F2]; subst. assert (T := doc_text_trimmed w a W F1).
    assert (NE : doc_attr_text w a <> "").
    { destruct a; cbn [doc_attr_text]; try discriminate. destruct W; auto. }
    destruct l as [|b l]; [exact T|].
    change (join ", " (map (doc_attr_text w) (a :: b :: l))) with
      (doc_attr_text w a ++ ", " ++ join ", " (map (doc_attr_text w) (b :: l))).
    specialize (IH F2).
    assert (NJ : join ", " (map (doc_attr_text w) (b :: l)) <> "").
    { assert (NB : doc_attr_text w b <> "").
      { destruct b; cbn [doc_attr_text]; try discriminate. destruct W; auto. }
      destruct l; cbn [map join]; auto. destruct (doc_attr_text w b); [congruence|discriminate]. }
    split.
    + destruct (doc_attr_text w a) as [|x r]; [congruence|]. intros [d [y [E B]]].
      injection E as -> _. destruct T as [T _]. apply T. exists d, r. auto.
    + rewrite <- app_assoc_s. apply not_ends_app; auto. apply IH.
Qed.

Lemma attrs_value : forall c, attr_value (c_default c) ->
  Forall (fun a => attr_value (doc_attr_value a)) (attrs_of c).
Proof.
  intros c H. unfold attrs_of.
  assert (Z : attr_value "") by (split; [intros []|apply no_ends_nil]).
  destruct (c_autoinc c), (String.eqb (c_default c) ""), (String.eqb (c_onupdate c) "");
    cbn [app]; repeat (apply Forall_cons; [exact H || exact Z|]); apply Forall_nil.
Qed.

(** reading the attributes cell of a written column *)
Lemma attributes_read : forall c, attr_value (c_default c) ->
  let m := parse_attributes (trim_space (join ", " (column_attributes c))) in
  String.eqb (attr_get m "autoInc") "true" = c_autoinc c /\
  attr_get m "default" = c_default c /\
  attr_get m "onUpdate" = (if String.eqb (c_onupdate c) "" then "" else c_default c).
Proof.
  intros c H m. subst m. rewrite attributes_text. assert (F := attrs_value c H).
  rewrite trim_id by (apply join_trimmed; [apply autoInc_word|exact F]).
  set (cl := join ", " (map (doc_attr_text "autoInc") (attrs_of c))).
  assert (I : forall k v, k <> "" -> (In (k, v) (parse_attributes cl) <->
             exists a, In a (attrs_of c) /\ doc_entry "autoInc" a = (k, v))).
  { intros k v N. exact (doc_cell_in _ _ _ k v autoInc_word (join_cell _) F N). }
  clearbody cl. repeat split.
  - destruct (c_autoinc c) eqn:A.
    + rewrite (attr_get_unique _ "autoInc" "true"); auto.
      * apply I; [discriminate|]. exists DAutoinc. split; auto. unfold attrs_of. rewrite A. now left.
      * intros w Hw. apply I in Hw; [|discriminate]. destruct Hw as [a [Ha E]].
        destruct a; cbn [doc_entry] in E; congruence.
    + rewrite attr_get_absent; auto. intros w Hw. apply I in Hw; [|discriminate].
      destruct Hw as [a [Ha E]]. destruct a; cbn [doc_entry] in E; try discriminate.
      unfold attrs_of in Ha. rewrite A in Ha. cbn [app] in Ha.
      destruct (String.eqb (c_default c) ""), (String.eqb (c_onupdate c) ""); cbn in Ha; intuition discriminate.
  - destruct (String.eqb_spec (c_default c) "") as [E0|E0].
    + rewrite E0. destruct (c_autoinc c) eqn:A; apply attr_get_absent; intros w Hw;
        apply I in Hw; try discriminate; destruct Hw as [a [Ha E]]; destruct a; cbn [doc_entry] in E; try discriminate;
        unfold attrs_of in Ha; rewrite A, E0 in Ha; cbn in Ha; destruct (String.eqb (c_onupdate c) ""); cbn in Ha; intuition discriminate.
    + apply attr_get_unique.
      * apply I; [discriminate|]. exists (DDefault (c_default c)). split; auto. unfold attrs_of.
        apply in_or_app. right. apply in_or_app. left.
        destruct (String.eqb_spec (c_default c) ""); [congruence|now left].
      * intros w Hw. apply I in Hw; [|discriminate]. destruct Hw as [a [Ha E]].
        destruct a; cbn [doc_entry] in E; try congruence. injection E as ->.
        unfold attrs_of in Ha. destruct (c_autoinc c), (String.eqb (c_default c) ""), (String.eqb (c_onupdate c) "");
          cbn in Ha; intuition congruence.
  - destruct (String.eqb_spec (c_onupdate c) "") as [E0|E0].
    + apply attr_get_absent; intros w Hw. apply I in Hw; try discriminate; destruct Hw as [a [Ha E]].
      destruct a; cbn [doc_entry] in E; try discriminate.
      unfold attrs_of in Ha. rewrite E0 in Ha. cbn in Ha.
      destruct (c_autoinc c), (String.eqb (c_default c) ""); cbn in Ha; intuition discriminate.
    + apply attr_get_unique.
      * apply I; [discriminate|]. exists (DOnUpdate (c_default c)). split; auto. unfold attrs_of.
        apply in_or_app. right. apply in_or_app. right.
        destruct (String.eqb_spec (c_onupdate c) ""); [congruence|now left].
      * intros w Hw. apply I in Hw; [|discriminate]. destruct Hw as [a [Ha E]].
        destruct a; cbn [doc_entry] in E; try congruence. injection E as ->.
        unfold attrs_of in Ha. destruct (c_autoinc c), (String.eqb (c_default c) ""), (String.eqb (c_onupdate c) "");
          cbn in Ha; intuition congruence.
Qed.

(** ** The other cells *)

Lemma no_space_trimmed : forall s, string_forallb (fun c => negb (is_space c)) s = true -> trimmed s.
Proof.
  intros s H. split.
  - intros [c [r [-> B]]]. cbn in H. now rewrite B in H.
  - intros [r [c [-> B]]]. rewrite forallb_app_s in H. cbn in H. rewrite B in H.
    cbn in H. now rewrite andb_false_r in H.
Qed.

Lemma digit_no_space : forall s, string_forallb is_digit s = true ->
  string_forallb (fun c => negb (is_space c)) s = true.
Proof.
  induction s as [|c s IH]; auto. cbn [string_forallb]. intros H. apply andb_prop in H as [H1 H2].
  rewrite IH by auto. rewrite andb_true_r. unfold is_digit, is_space in *.
  apply andb_prop in H1 as [A B]. apply PeanoNat.Nat.leb_le in A, B.
  destruct (Nat.leb_spec 9 (nat_of_ascii c)), (Nat.leb_spec (nat_of_ascii c) 13), (Nat.eqb_spec (nat_of_ascii c) 32); simpl; auto; lia.
Qed.

Lemma type_no_space : forall t, In t octopus_types -> string_forallb (fun c => negb (is_space c)) t = true.
Proof.
  intros t H. assert (G : forallb (fun t => string_forallb (fun c => negb (is_space c)) t) octopus_types = true)
    by (vm_compute; reflexivity).
  rewrite forallb_forall in G. now apply G.
Qed.

Lemma format_trimmed : forall c, In (c_type c) octopus_types -> trimmed (col_format c).
Proof.
  intros c H. apply no_space_trimmed. apply type_no_space in H. unfold col_format.
  destruct (N.eqb (c_size c) 0); auto.
  destruct (N.eqb (c_scale c) 0); rewrite !forallb_app_s, H;
    rewrite ?(digit_no_space (itoa (c_size c))), ?(digit_no_space (itoa (c_scale c))) by apply itoa_digits; reflexivity.
Qed.

Lemma readable_parse : forall c, readable_type c -> parse_type (col_format c) = (c_type c, c_size c, c_scale c).
Proof. intros c [H1 [H2 [H3 H4]]]. now apply parse_format_exact. Qed.

Lemma format_not_table : forall c, readable_type c -> col_format c <> "table".
Proof.
  intros c H E. assert (P := readable_parse c H). rewrite E in P.
  let r := eval vm_compute in (parse_type "table") in change (parse_type "table") with r in P.
  injection P as P _ _. destruct H as [H _]. rewrite <- P in H. vm_compute in H.
  repeat (destruct H as [H|H]; [discriminate|]). destruct H.
Qed.

(** what is needed of a reference, a column and a table to be read as it was written, apart from on-update values *)
Definition fit_reference (r : reference) : Prop :=
  ref_table r <> "" /\ ref_column r <> "" /\
  ~ char_in "." (ref_table r) /\ ~ char_in "." (ref_column r) /\
  ~ starts_blank (ref_table r) /\ ~ ends_blank (ref_column r) /\
  ref_rel r = relationship_of (ref_table r).
Definition fit_type (c : column) : Prop :=
  parse_type (col_format c) = (c_type c, c_size c, c_scale c) /\ trimmed (col_format c) /\ col_format c <> "table".
Definition fit_column (c : column) : Prop :=
  c_name c <> "" /\ trimmed (c_name c) /\
  fit_type c /\
  trimmed (c_desc c) /\
  (c_pk c = true -> c_uq c = false) /\
  attr_value (c_default c) /\
  c_values c = [] /\
  (forall r, c_ref c = Some r -> fit_reference r).
Definition fit_table (t : table) : Prop :=
  t_name t <> "" /\ trimmed (t_name t) /\ trimmed (t_desc t) /\ attr_value (t_class t) /\
  Forall fit_column (t_cols t) /\
  Forall plain_index (t_indices t) /\ NoDup (map ix_name (t_indices t)).

Lemma plain_reference_fit : forall r, plain_reference r -> fit_reference r.
Proof.
  intros [t c rel] [H1 [H2 [H3 [H4 [H5 [H6 [H7 [H8 H9]]]]]]]]. cbn [ref_table ref_column ref_rel] in *.
  repeat (split; [assumption|]). cbn [ref_table ref_column ref_rel]. subst rel.
  unfold relationship_of. destruct t as [|x t]; auto.
  destruct (Ascii.eqb_spec x ">"); auto.
  destruct (Ascii.eqb_spec x "<") as [->|_]; [destruct (H7 t eq_refl)|].
  destruct (Ascii.eqb_spec x "-") as [->|_]; [destruct (H8 t eq_refl)|]. reflexivity.
Qed.

Lemma plain_column_fit : forall c, plain_column c -> fit_column c /\ settled_column c = c.
Proof.
  intros c [H1 [H2 [H3 [H4 [H5 [H6 [H7 [H8 H9]]]]]]]]. split.
  - repeat (split; [assumption|]). split.
    + split; [exact (readable_parse c H3)|]. split; [apply format_trimmed; apply H3|exact (format_not_table c H3)].
    + repeat (split; [assumption|]). intros r R. apply plain_reference_fit. now apply H9.
  - destruct c as [nm ty ds sz sc nn pk uq ai df ou vs rf]. unfold settled_column.
    cbn [c_name c_type c_desc c_size c_scale c_notnull c_pk c_uq c_autoinc c_default c_onupdate c_values c_ref] in *.
    destruct H7 as [-> | ->]; [reflexivity|]. destruct df; reflexivity.
Qed.

Lemma plain_table_fit : forall t, plain_table t -> fit_table t /\ settled_table t = t.
Proof.
  intros t [H1 [H2 [H3 [H4 [H5 [H6 H7]]]]]]. rewrite Forall_forall in H5. split.
  - repeat (split; [assumption|]). split; [|split; assumption].
    apply Forall_forall. intros c C. exact (proj1 (plain_column_fit c (H5 c C))).
  - destruct t as [n cs d g cl ix]. unfold settled_table. cbn [t_name t_cols t_desc t_group t_class t_indices] in *.
    f_equal. rewrite <- (map_id cs) at 2. apply map_ext_in. intros c C. exact (proj2 (plain_column_fit c (H5 c C))).
Qed.

Lemma reference_trimmed : forall r, fit_reference r -> trimmed (ref_table r ++ "." ++ ref_column r).
Proof.
  intros r [H1 [H2 [_ [_ [H3 [H4 _]]]]]]. split.
  - destruct (ref_table r) as [|c t]; [congruence|]. intros [d [x [E B]]].
    injection E as -> _. apply H3. exists d, t. auto.
  - rewrite <- app_assoc_s. now apply not_ends_app.
Qed.

Lemma reference_read : forall r, fit_reference r ->
  parse_reference (ref_table r ++ "." ++ ref_column r) = Some r.
Proof.
  intros [t c rel] [H1 [H2 [H3 [H4 [_ [_ H5]]]]]]. cbn [ref_table ref_column ref_rel] in *.
  unfold parse_reference.
  destruct (String.eqb_spec (t ++ "." ++ c) "") as [E|_].
  { destruct t; discriminate. }
  change (t ++ "." ++ c) with (t ++ String "." c). rewrite split_char_app by exact H3.
  rewrite split_char_nochar by exact H4.
  destruct (String.eqb_spec t ""); [congruence|]. destruct (String.eqb_spec c ""); [congruence|].
  cbn [orb]. now subst rel.
Qed.

(** ** Columns *)

Lemma column_cells : forall un c, fit_column c ->
  cell (column_row un c) 0 = column_reference c /\
  cell (column_row un c) 1 = c_name c /\
  cell (column_row un c) 2 = col_format c /\
  cell (column_row un c) 3 = (if c_pk c then "P" else if c_uq c then "U" else "") /\
  cell (column_row un c) 4 = (if Bool.eqb un (c_notnull c) then "" else "O") /\
  cell (column_row un c) 6 = c_desc c.
Proof.
  intros un c [H1 [H2 [[_ [H3 _]] [H4 [H5 [H6 [H8 H9]]]]]]].
  unfold cell, get_cell_value, column_row. cbn [nth]. repeat split.
  - unfold column_reference. destruct (c_ref c) as [r|]; [|reflexivity].
    apply trim_id, reference_trimmed, H9. reflexivity.
  - now apply trim_id.
  - now apply trim_id.
  - destruct (c_pk c), (c_uq c); reflexivity.
  - destruct un, (c_notnull c); reflexivity.
  - rewrite !(trim_id (c_desc c)) by assumption. reflexivity.
Qed.

Lemma column_read : forall un c, fit_column c -> read_column (negb un) (column_row un c) = settled_column c.
Proof.
  intros un c H. destruct (column_cells un c H) as [C0 [C1 [C2 [C3 [C4 C6]]]]].
  unfold read_column. fold (cell (column_row un c) 0) (cell (column_row un c) 1) (cell (column_row un c) 2)
    (cell (column_row un c) 3) (cell (column_row un c) 4) (cell (column_row un c) 5) (cell (column_row un c) 6).
  destruct H as [H1 [H2 [[H3 _] [H4 [H5 [H6 [H8 H9]]]]]]].
  rewrite C0, C1, C2, C3, C4, C6. rewrite H3.
  destruct (attributes_read c H6) as [A1 [A2 A3]].
  change (cell (column_row un c) 5) with (trim_space (join ", " (column_attributes c))).
  rewrite A1, A2, A3.
  assert (R : parse_reference (column_reference c) = c_ref c).
  { unfold column_reference. destruct (c_ref c) as [r|]; [|reflexivity]. apply reference_read, H9. reflexivity. }
  rewrite R. unfold settled_column. destruct c as [nm ty ds sz sc nn pk uq ai df ou vs rf]. cbn [c_name c_type c_desc c_size c_scale c_notnull c_pk c_uq c_autoinc c_default c_onupdate c_values c_ref] in *.
  subst vs. f_equal.
  - destruct un, nn; reflexivity.
  - destruct pk, uq; reflexivity.
  - destruct pk; [rewrite H5 by reflexivity; reflexivity|]. destruct uq; reflexivity.
  - destruct ou; reflexivity.
Qed.

Lemma read_columns : forall un g cs rows k ts t, Forall fit_column cs ->
  read_rows g (negb un) k (map (column_row un) cs ++ rows) ts (Some t) =
  read_rows g (negb un) (length cs + k) rows ts (Some (with_cols t (t_cols t ++ map settled_column cs)%list)).
Proof.
  intros un g. induction cs as [|c cs IH]; intros rows k ts t F.
  - cbn [map app length Nat.add]. rewrite app_nil_r. destruct t; reflexivity.
  - inversion F as [|? ? F1 F2]; subst. cbn [map app]. rewrite read_rows_cons.
    destruct (column_cells un c F1) as [C0 [C1 [C2 [C3 [C4 C6]]]]].
    rewrite C1, C2, C3, column_read by exact F1.
    destruct F1 as [N [_ [[_ [_ T]] _]]].
    destruct (String.eqb_spec (col_format c) "table") as [E|_]; [destruct (T E)|].
    destruct (String.eqb_spec (c_name c) ""); [congruence|].
    replace (String.eqb (if c_pk c then "P" else if c_uq c then "U" else "") "I") with false
      by (destruct (c_pk c), (c_uq c); reflexivity).
    rewrite IH by exact F2. unfold add_column. cbn [length t_cols with_cols].
    rewrite <- app_assoc. cbn [app]. f_equal. lia.
Qed.

(** ** Indices *)

Lemma index_cells : forall n col, trimmed n -> trimmed col ->
  cell [n; col; ""; "I"] 0 = n /\ cell [n; col; ""; "I"] 1 = col /\
  cell [n; col; ""; "I"] 2 = "" /\ cell [n; col; ""; "I"] 3 = "I".
Proof. intros n col H1 H2. unfold cell, get_cell_value. cbn [nth]. rewrite !trim_id by assumption. auto. Qed.

Lemma index_by_name_snoc : forall ixs n cols, ~ In n (map ix_name ixs) ->
  index_by_name (ixs ++ [mkIdx n cols])%list n = Some (mkIdx n cols).
Proof.
  induction ixs as [|i ixs IH]; intros n cols H; cbn.
  - now rewrite String.eqb_refl.
  - cbn in H. destruct (String.eqb_spec (ix_name i) n); [tauto|]. apply IH. tauto.
Qed.
Lemma index_by_name_none : forall ixs n, ~ In n (map ix_name ixs) -> index_by_name ixs n = None.
Proof.
  induction ixs as [|i ixs IH]; intros n H; cbn; auto. cbn in H.
  destruct (String.eqb_spec (ix_name i) n); [tauto|]. apply IH. tauto.
Qed.
Lemma index_add_snoc : forall ixs n cols col, ~ In n (map ix_name ixs) ->
  index_add_column (ixs ++ [mkIdx n cols])%list n col = (ixs ++ [mkIdx n (cols ++ [col])])%list.
Proof.
  induction ixs as [|i ixs IH]; intros n cols col H; cbn.
  - now rewrite String.eqb_refl.
  - cbn in H. destruct (String.eqb_spec (ix_name i) n); [tauto|]. f_equal. apply IH. tauto.
Qed.

Lemma read_index_more : forall nn g n cols rows k ts t ixs cols0,
  trimmed n -> Forall (fun n => n <> "" /\ trimmed n) cols -> ~ In n (map ix_name ixs) ->
  t_indices t = (ixs ++ [mkIdx n cols0])%list ->
  read_rows g nn k (map (fun col => [n; col; ""; "I"]) cols ++ rows) ts (Some t) =
  read_rows g nn (length cols + k) rows ts (Some (with_indices t (ixs ++ [mkIdx n (cols0 ++ cols)])%list)).
Proof.
  intros nn g n. induction cols as [|c cols IH]; intros rows k ts t ixs cols0 N F D E.
  - cbn [map app length Nat.add]. rewrite app_nil_r. rewrite <- E. destruct t; reflexivity.
  - inversion F as [|? ? [F1 F2] F3]; subst. cbn [map app]. rewrite read_rows_cons.
    destruct (index_cells n c N F2) as [C0 [C1 [C2 C3]]]. rewrite C0, C1, C2, C3.
    destruct (String.eqb_spec c ""); [congruence|]. cbn [String.eqb Ascii.eqb Bool.eqb].
    unfold add_index_column. rewrite E, index_by_name_snoc, index_add_snoc by exact D.
    rewrite (IH rows _ _ (with_indices t (ixs ++ [mkIdx n (cols0 ++ [c])])%list) ixs (cols0 ++ [c])%list N F3 D eq_refl).
    unfold with_indices. cbn [t_name t_cols t_desc t_group t_class]. rewrite <- app_assoc. cbn [app length].
    f_equal. lia.
Qed.

Lemma read_index : forall nn g i rows k ts t, plain_index i -> ~ In (ix_name i) (map ix_name (t_indices t)) ->
  read_rows g nn k (index_rows i ++ rows) ts (Some t) =
  read_rows g nn (length (ix_cols i) + k) rows ts (Some (with_indices t (t_indices t ++ [i])%list)).
Proof.
  intros nn g [n cols] rows k ts t [N [NE F]] D. cbn [ix_name ix_cols] in *. unfold index_rows. cbn [ix_name ix_cols].
  destruct cols as [|c cols]; [congruence|].
  inversion F as [|? ? [F1 F2] F3]; subst. cbn [map app]. rewrite read_rows_cons.
  destruct (index_cells n c N F2) as [C0 [C1 [C2 C3]]]. rewrite C0, C1, C2, C3.
  destruct (String.eqb_spec c ""); [congruence|]. cbn [String.eqb Ascii.eqb Bool.eqb].
  unfold add_index_column. rewrite index_by_name_none by exact D.
  rewrite (read_index_more nn g n cols rows _ _ (with_indices t (t_indices t ++ [mkIdx n [c]])%list) (t_indices t) [c] N F3 D eq_refl).
  unfold with_indices. cbn [t_name t_cols t_desc t_group t_class app length]. f_equal. lia.
Qed.

Lemma read_indices : forall nn g ixs rows k ts t, Forall plain_index ixs ->
  NoDup (map ix_name (t_indices t ++ ixs)%list) ->
  exists k', read_rows g nn k (flat_map index_rows ixs ++ rows) ts (Some t) =
  read_rows g nn k' rows ts (Some (with_indices t (t_indices t ++ ixs)%list)).
Proof.
  intros nn g. induction ixs as [|i ixs IH]; intros rows k ts t F D.
  - exists k. cbn [flat_map app]. rewrite app_nil_r. destruct t; reflexivity.
  - inversion F as [|? ? F1 F2]; subst. cbn [flat_map]. rewrite <- app_assoc. rewrite read_index.
    + destruct (IH rows (length (ix_cols i) + k) ts (with_indices t (t_indices t ++ [i])%list) F2) as [k' E].
      * cbn [with_indices t_indices]. rewrite <- app_assoc. exact D.
      * exists k'. rewrite E. unfold with_indices. cbn [t_name t_cols t_desc t_group t_class t_indices].
        rewrite <- app_assoc. reflexivity.
    + exact F1.
    + rewrite map_app in D. intros C. apply (NoDup_app_disj _ _ _ D C). cbn [map]. now left.
Qed.

(** ** Tables *)

Lemma table_cells : forall t, fit_table t ->
  cell (table_row t) 0 = t_name t /\ cell (table_row t) 2 = "table" /\ cell (table_row t) 6 = t_desc t /\
  attr_get (parse_attributes (cell (table_row t) 5)) "class" = t_class t.
Proof.
  intros t [H1 [H2 [H3 [H4 _]]]]. unfold cell, get_cell_value, table_row. cbn [nth]. repeat split.
  - now apply trim_id.
  - rewrite !(trim_id (t_desc t)) by assumption. reflexivity.
  - destruct (String.eqb_spec (t_class t) "") as [->|N]; [reflexivity|].
    assert (F : Forall (fun a => attr_value (doc_attr_value a)) [DClass (t_class t)]) by (constructor; auto).
    assert (J := join_trimmed "autoInc" [DClass (t_class t)] autoInc_word F). cbn [map join doc_attr_text] in J.
    rewrite trim_id by exact J.
    assert (D := join_cell [DClass (t_class t)]). cbn [map join doc_attr_text] in D.
    apply attr_get_unique.
    + apply (doc_cell_in "autoInc" [DClass (t_class t)]); auto using autoInc_word; [discriminate|].
      exists (DClass (t_class t)). split; [now left|reflexivity].
    + intros w Hw. apply (doc_cell_in "autoInc" [DClass (t_class t)]) in Hw; auto using autoInc_word; [|discriminate].
      destruct Hw as [a [[<-|[]] E]]. cbn in E. congruence.
Qed.

Lemma read_blank_row : forall g nn k rows ts t, exists k',
  read_rows g nn k ([] :: rows) ts (Some t) = read_rows g nn k' rows ts (Some t).
Proof. intros. exists (S k). reflexivity. Qed.

Lemma read_tables : forall un g G n tbls i k ts last, Forall fit_table (filter (fun t => String.eqb (t_group t) g) tbls) ->
  read_rows G (negb un) k (tables_rows un g n i tbls) ts last =
  inl (ts ++ opt_list last ++ map (fun t => in_group G (settled_table t)) (filter (fun t => String.eqb (t_group t) g) tbls))%list.
Proof.
  intros un g G n. induction tbls as [|t tbls IH]; intros i k ts last F; cbn [tables_rows filter].
  - cbn [map]. rewrite read_rows_nil, app_nil_r. reflexivity.
  - cbn [filter] in F. destruct (String.eqb (t_group t) g); [|apply IH; exact F].
    inversion F as [|? ? F1 F2]; subst. cbn [app]. rewrite read_rows_cons.
    destruct (table_cells t F1) as [C0 [C2 [C6 C5]]]. rewrite C0, C2, C6, C5. cbn [String.eqb Ascii.eqb Bool.eqb].
    destruct F1 as [N [_ [_ [_ [FC [FI ND]]]]]].
    destruct (String.eqb_spec (t_name t) ""); [congruence|].
    rewrite <- !app_assoc. rewrite read_columns by exact FC. cbn [t_cols with_cols t_name t_desc t_group t_class t_indices app].
    match goal with |- read_rows _ _ ?k0 _ ?ts0 (Some ?t0) = _ =>
      destruct (read_indices (negb un) G (t_indices t) ((if Nat.ltb i (n - 1) then [[]] else []) ++ tables_rows un g n (S i) tbls)%list
        k0 ts0 t0 FI ND) as [k' E] end.
    unfold with_cols in *. cbn [t_cols t_name t_desc t_group t_class t_indices app] in *. rewrite E. clear E.
    unfold with_indices. cbn [t_cols t_name t_desc t_group t_class t_indices app].
    assert (R : forall k ts t0, read_rows G (negb un) k ((if Nat.ltb i (n - 1) then [[]] else []) ++ tables_rows un g n (S i) tbls)%list ts (Some t0)
       = inl (ts ++ opt_list (Some t0) ++ map (fun t => in_group G (settled_table t)) (filter (fun t => String.eqb (t_group t) g) tbls))%list).
    { intros k0 ts0 t0. destruct (Nat.ltb i (n - 1)); cbn [app]; [|apply IH; exact F2].
      destruct (read_blank_row G (negb un) k0 (tables_rows un g n (S i) tbls) ts0 t0) as [k1 E].
      rewrite E. apply IH. exact F2. }
    rewrite R. cbn [opt_list map app]. rewrite <- !app_assoc. reflexivity.
Qed.

Lemma read_group_rows : forall un s g G, Forall fit_table (s_tables s) ->
  read_group_sheet G (group_rows un s g) =
  inl (map (fun t => in_group G (settled_table t)) (filter (fun t => String.eqb (t_group t) g) (s_tables s))).
Proof.
  intros un s g G F. unfold group_rows, read_group_sheet.
  replace (String.eqb (trim_space (get_cell_value (header_row un) 4)) "not null") with (negb un)
    by (destruct un; vm_compute; reflexivity).
  rewrite read_tables; auto. apply Forall_forall. intros t Ht. apply filter_In in Ht.
  rewrite Forall_forall in F. now apply F.
Qed.

(** ** Sheets *)

Lemma sheet_name_doc : forall g, sheet_name g = documented_sheet g.
Proof. destruct g; reflexivity. Qed.

Lemma add_groups_ok : forall name_ok un s gs wb,
  (forall g, In g gs -> name_ok (sheet_name g) = true /\ ~ In (sheet_name g) (map fst wb)) ->
  NoDup (map sheet_name gs) ->
  add_group_sheets name_ok un s gs wb =
  Some (wb ++ map (fun g => (sheet_name g, group_rows un s g)) gs)%list.
Proof.
  intros name_ok un s. induction gs as [|g gs IH]; intros wb H D; cbn [add_group_sheets map].
  - now rewrite app_nil_r.
  - inversion D as [|? ? D1 D2]; subst. destruct (H g (or_introl eq_refl)) as [H1 H2].
    unfold add_sheet. cbn [fst]. rewrite H1. apply str_in_false in H2. rewrite H2. cbn [orb negb].
    rewrite IH; [now rewrite <- app_assoc| |exact D2].
    intros g' Hg. destruct (H g' (or_intror Hg)) as [A B]. split; auto.
    rewrite map_app. cbn [map fst]. intros C. apply in_app_or in C. destruct C as [C|[C|[]]]; auto.
    apply D1. rewrite C. now apply in_map.
Qed.

Lemma map_nodup_inj : forall {A B} (f : A -> B) l, NoDup l ->
  (forall x y, In x l -> In y l -> f x = f y -> x = y) -> NoDup (map f l).
Proof.
  induction l as [|a l IH]; intros D I; cbn [map]; [constructor|]. inversion D; subst. constructor.
  - intros C. apply in_map_iff in C as [b [E Hb]]. assert (b = a) by (apply I; [now right|now left|exact E]).
    subst. contradiction.
  - apply IH; auto. intros x y Hx Hy. apply I; now right.
Qed.

Lemma exported : forall name_ok un s, sheets_possible name_ok s ->
  NoDup (map sheet_name (groups s)) /\ ~ In "Meta" (map sheet_name (groups s)) /\
  export_xlsx name_ok un s =
  Some (("Meta", meta_rows s) :: map (fun g => (sheet_name g, group_rows un s g)) (groups s)).
Proof.
  intros name_ok un s [M [H I]]. destruct (groups_spec s) as [SI G].
  assert (D : NoDup (map sheet_name (groups s))).
  { apply map_nodup_inj; [now apply strictly_increasing_nodup|]. intros x y Hx Hy E.
    apply G in Hx as [t [Ht <-]]. apply G in Hy as [t' [Ht' <-]]. rewrite !sheet_name_doc in E. now apply I. }
  assert (NM : ~ In "Meta" (map sheet_name (groups s))).
  { intros C. apply in_map_iff in C as [g [E Hg]]. apply G in Hg as [t [Ht <-]].
    rewrite sheet_name_doc in E. now destruct (H t Ht). }
  split; [exact D|]. split; [exact NM|].
  unfold export_xlsx, add_sheet. cbn [map fst str_in existsb orb app]. rewrite M. cbn [negb].
  rewrite add_groups_ok; auto. intros g Hg. split.
  - apply G in Hg as [t [Ht <-]]. rewrite sheet_name_doc. now destruct (H t Ht).
  - cbn [map fst]. intros [C|[]]. apply NM. rewrite C. now apply in_map.
Qed.

Lemma group_names_nodup : forall wb acc, NoDup (acc ++ map fst wb)%list -> ~ In "Meta" (map fst wb) ->
  fold_left (fun ks (sh : sheet) => if String.eqb (fst sh) "Meta" then ks else ss_add ks (fst sh)) wb acc
  = (acc ++ map fst wb)%list.
Proof.
  induction wb as [|[n r] wb IH]; intros acc D N; cbn [fold_left map fst].
  - now rewrite app_nil_r.
  - cbn [map fst] in D, N. destruct (String.eqb_spec n "Meta"); [destruct N; now left|].
    unfold ss_add. assert (C : ss_contains acc n = false).
    { apply str_in_false. intros C. apply (NoDup_app_disj _ _ _ D C). now left. }
    rewrite C. rewrite IH.
    + now rewrite <- app_assoc.
    + rewrite <- app_assoc. exact D.
    + intros X. apply N. now right.
Qed.

Lemma find_nodup : forall {V} (l : list (string * V)) k v, NoDup (map fst l) -> In (k, v) l -> alist_find l k = Some v.
Proof.
  induction l as [|[k' v'] l IH]; intros k v D I; [destruct I|]. cbn [map fst] in D.
  inversion D as [|? ? D1 D2]; subst. cbn [alist_find]. destruct I as [I|I].
  - injection I as -> ->. now rewrite String.eqb_refl.
  - destruct (String.eqb_spec k k') as [->|_]; auto. destruct D1. apply in_map_iff. now exists (k', v).
Qed.

Lemma find_rev_nodup : forall {V} (l : list (string * V)) k v, NoDup (map fst l) -> In (k, v) l ->
  alist_find (rev l) k = Some v.
Proof.
  intros V l k v D I. apply find_nodup.
  - rewrite map_rev. now apply NoDup_rev.
  - now apply in_rev in I.
Qed.

Lemma tables_on_group : forall name_ok s g, sheets_possible name_ok s -> In g (groups s) ->
  filter (fun t => String.eqb (t_group t) g) (s_tables s) = tables_on (documented_sheet g) s.
Proof.
  intros name_ok s g [_ [_ I]] Hg. destruct (groups_spec s) as [_ G]. apply G in Hg as [t0 [H0 <-]].
  unfold tables_on. apply filter_ext_in. intros t Ht.
  destruct (String.eqb_spec (t_group t) (t_group t0)) as [->|N]; [now rewrite String.eqb_refl|].
  symmetry. apply String.eqb_neq. intros E. apply N. now apply I.
Qed.

Lemma read_sheets_all : forall wb (f : string -> list table) gs acc,
  (forall g, In g gs -> read_group_sheet g (group_sheet wb g) = inl (f g)) ->
  read_sheets wb gs acc = inl (acc ++ flat_map f gs)%list.
Proof.
  intros wb f. induction gs as [|g gs IH]; intros acc H; cbn [read_sheets flat_map].
  - now rewrite app_nil_r.
  - rewrite H by now left. rewrite IH by (intros; apply H; now right). now rewrite app_assoc.
Qed.

Lemma filter_in_group : forall n m l,
  filter (fun t => String.eqb (t_group t) n) (map (in_group m) l) =
  if String.eqb m n then map (in_group m) l else [].
Proof.
  induction l as [|t l IH]; cbn [map filter]; [now destruct (String.eqb m n)|].
  cbn [in_group t_group]. rewrite IH. now destruct (String.eqb m n).
Qed.

Lemma filter_sheets : forall (f : string -> list table) n gs, NoDup gs ->
  filter (fun t => String.eqb (t_group t) n) (flat_map (fun m => map (in_group m) (f m)) gs) =
  if str_in n gs then map (in_group n) (f n) else [].
Proof.
  intros f n. induction gs as [|g gs IH]; intros D; [reflexivity|]. inversion D as [|? ? D1 D2]; subst.
  cbn [flat_map]. rewrite filter_app, filter_in_group, IH by exact D2.
  unfold str_in. cbn [existsb]. rewrite (String.eqb_sym n g). destruct (String.eqb_spec g n) as [->|N].
  - cbn [orb]. apply str_in_false in D1. unfold str_in in D1. rewrite D1. apply app_nil_r.
  - reflexivity.
Qed.

Theorem roundtrip_fit : forall name_ok un ord s,
  iteration_order ord -> sheets_possible name_ok s -> Forall fit_table (s_tables s) ->
  exists wb, export_xlsx name_ok un s = Some wb /\
  forall wb', reads_as wb wb' ->
  exists s', import_xlsx ord wb' = inl s' /\
    s_author s' = s_author s /\ s_name s' = s_name s /\ s_version s' = s_version s /\
    forall n, filter (fun t => String.eqb (t_group t) n) (s_tables s') =
              map (fun t => in_group n (settled_table t)) (tables_on n s).
Proof.
  intros name_ok un ord s O P F. destruct (exported name_ok un s P) as [D [NM E]].
  eexists. split; [exact E|]. intros wb' R. rewrite <- (import_same ord _ _ R). clear R wb' E.
  set (sheets := map (fun g => (sheet_name g, group_rows un s g)) (groups s)).
  set (wb := ("Meta", meta_rows s) :: sheets).
  assert (NS : map fst sheets = map sheet_name (groups s)).
  { unfold sheets. rewrite map_map. reflexivity. }
  assert (DW : NoDup (map fst wb)).
  { unfold wb. cbn [map fst]. rewrite NS. now constructor. }
  assert (GN : group_names wb = map sheet_name (groups s)).
  { unfold group_names, wb. cbn [fold_left fst]. cbn [String.eqb Ascii.eqb Bool.eqb].
    rewrite group_names_nodup; rewrite NS; auto. }
  unfold import_xlsx.
  assert (MS : meta_sheet wb = Some (meta_rows s)).
  { unfold meta_sheet. apply find_rev_nodup; [exact DW|now left]. }
  rewrite MS, GN.
  rewrite (read_sheets_all wb (fun n => map (in_group n) (map settled_table (tables_on n s)))).
  - cbn [app]. eexists. split; [reflexivity|]. cbn [s_author s_name s_version s_tables].
    split; [reflexivity|]. split; [reflexivity|]. split; [reflexivity|].
    intros n. rewrite <- (map_map settled_table (in_group n)). rewrite (filter_sheets (fun m => map settled_table (tables_on m s))).
    + destruct (str_in n (ord (map sheet_name (groups s)))) eqn:I; auto.
      apply str_in_false in I. symmetry.
      assert (T : tables_on n s = []); [|now rewrite T].
      unfold tables_on. destruct (filter _ _) as [|t l] eqn:Fl; auto. destruct I.
      assert (Ht : In t (t :: l)) by now left. rewrite <- Fl in Ht. apply filter_In in Ht as [Ht Hn].
      apply String.eqb_eq in Hn. apply (Permutation_in _ (Permutation_sym (O _))).
      apply in_map_iff. exists (t_group t). split; [now rewrite sheet_name_doc|].
      apply (proj2 (groups_spec s)). eauto.
    + apply (Permutation_NoDup (Permutation_sym (O _))). exact D.
  - intros n Hn. apply (Permutation_in _ (O _)) in Hn. apply in_map_iff in Hn as [g [<- Hg]].
    assert (GS : group_sheet wb (sheet_name g) = group_rows un s g).
    { unfold group_sheet. rewrite (find_rev_nodup wb _ (group_rows un s g)); auto.
      right. unfold sheets. apply in_map_iff. now exists g. }
    rewrite GS, read_group_rows by exact F. rewrite <- (map_map settled_table (in_group (sheet_name g))). rewrite (tables_on_group name_ok s g P Hg).
    now rewrite sheet_name_doc.
Qed.

Theorem roundtrip : forall name_ok un ord s,
  iteration_order ord -> sheets_possible name_ok s -> Forall plain_table (s_tables s) ->
  exists wb, export_xlsx name_ok un s = Some wb /\
  forall wb', reads_as wb wb' ->
  exists s', import_xlsx ord wb' = inl s' /\
    s_author s' = s_author s /\ s_name s' = s_name s /\ s_version s' = s_version s /\
    forall n, filter (fun t => String.eqb (t_group t) n) (s_tables s') =
              map (in_group n) (tables_on n s).
Proof.
  intros name_ok un ord s O P F. rewrite Forall_forall in F.
  destruct (roundtrip_fit name_ok un ord s O P) as (wb & E & B).
  - apply Forall_forall. intros t T. exact (proj1 (plain_table_fit t (F t T))).
  - exists wb. split; [exact E|]. intros wb' R. destruct (B wb' R) as (s' & I & A1 & A2 & A3 & G).
    exists s'. repeat (split; [assumption|]). intros n. rewrite G. apply map_ext_in. intros t T.
    unfold tables_on in T. apply filter_In in T as [T _]. now rewrite (proj2 (plain_table_fit t (F t T))).
Qed.
