(** Lemmas for C93 *)
From Coq Require Import String Ascii List NArith Bool Lia Sorting.Permutation Sorting.Sorted.
From Verif.Model Require Import GoString Util Octopus Common Json JsonText Mysql Ojson Staruml Xlsx Gorm DiffCore Diff DiffWriters Liquibase OjsonText StarumlText Cli.
From Verif.Spec Require Import Text OctopusSpec JsonSpec CliSpec FormatSpec DiffSpec MarkdownSpec GormSpec OjsonSpec OptionsSpec StabilitySpec OrderSpec.
From Verif.Proofs Require MysqlTables.
From Verif.Proofs Require Import ListLemmas StringLemmas OctopusProofs OjsonProofs JsonProofs JsonTextProofs CliLoad CliCases CliFormat CliImports
  GormProofs DiffCoreProofs DiffProofs DiffFacts LiquibaseProofs MarkdownProofs CliOptions StabilityProofs.
Import ListNotations.
Local Open Scope string_scope.

(** ** Sorting *)
Definition keys_of (ts : list table) := map (fun t => (t_group t, t_name t)) ts.

Lemma sorts_agree : forall sortf sortf' l l', sorts_tables sortf -> sorts_tables sortf' -> Permutation l l' ->
  NoDup (keys_of l) -> sortf l = sortf' l'.
Proof.
  intros sortf sortf' l l' H H' P D. destruct (H l) as [P1 S1], (H' l') as [P2 S2].
  apply sorted_perm_unique; [|now apply sorted_strong|now apply sorted_strong|].
  - now rewrite P1, P2.
  - eapply Permutation_NoDup; [apply Permutation_map; symmetry; exact P1|exact D].
Qed.

Lemma normalized_keys : forall ts, keys_of (fst (normalize_tables ts)) = keys_of ts.
Proof.
  induction ts as [|t ts IH]; [reflexivity|]. cbn [normalize_tables]. destruct (normalize_cols (t_cols t)) as [cs [e|]]; [reflexivity|].
  destruct (normalize_tables ts) as [r e]. cbn [fst] in *. unfold keys_of in *. cbn [map]. now rewrite IH.
Qed.
Lemma decoded_keys : forall sortf s, sorts_tables sortf -> distinct_table_keys (load_schema_decoded sortf s) -> NoDup (keys_of (s_tables s)).
Proof.
  intros sortf s H D. unfold load_schema_decoded, normalize in D. pose proof (normalized_keys (sortf (s_tables s))) as K.
  destruct (normalize_tables (sortf (s_tables s))) as [ts e]. cbn [fst] in *. unfold distinct_table_keys in D. cbn [with_tables s_tables] in D.
  unfold keys_of in K at 1. rewrite K in D. refine (Permutation_NoDup _ D). apply Permutation_map. exact (proj1 (H _)).
Qed.
Lemma decoded_agree : forall sortf sortf' s, sorts_tables sortf -> sorts_tables sortf' ->
  distinct_table_keys (load_schema_decoded sortf s) -> load_schema_decoded sortf s = load_schema_decoded sortf' s.
Proof.
  intros sortf sortf' s H H' D. apply (decoded_keys _ _ H) in D. unfold load_schema_decoded, normalize.
  now rewrite (sorts_agree sortf sortf' _ _ H H' (Permutation_refl _) D).
Qed.
Lemma load_agree : forall w w' fs name, sorts_tables (w_sort w) -> sorts_tables (w_sort w') ->
  (forall s, load_file w fs name = Loaded s -> distinct_table_keys s) -> load_file w fs name = load_file w' fs name.
Proof.
  intros w w' fs name H H' D. unfold load_file in *. destruct (load_schema_accepts name); [|reflexivity].
  destruct (fs name) as [text|]; [|reflexivity]. destruct (read_text text) as [j|]; [|reflexivity].
  destruct (from_json (without_nulls j)) as [s|]; [|reflexivity]. destruct (has_null_table j); [reflexivity|].
  destruct (has_null_column j); [reflexivity|]. destruct (has_null_index j); [reflexivity|]. f_equal. apply decoded_agree; auto.
Qed.

(** ** Saving *)
Lemma text_agree : forall sortf sortf' s s', sorts_tables sortf -> sorts_tables sortf' -> same_but_order s s' ->
  distinct_table_keys s -> to_text sortf s = to_text sortf' s'.
Proof.
  intros sortf sortf' s s' H H' (P & A & N & V) D. unfold to_text, to_json, normalize.
  rewrite (sorts_agree sortf sortf' _ _ H H' P D). destruct (normalize_tables _) as [ts [e|]]; [reflexivity|].
  do 2 f_equal. destruct s, s'. unfold with_tables. cbn in *. congruence.
Qed.
Lemma repaired_keys : forall s s', schema_repaired s s' -> Permutation (keys_of (s_tables s)) (keys_of (s_tables s')).
Proof.
  intros s s' ((ts & P & F) & _). unfold keys_of. rewrite <- (Permutation_map _ P).
  match goal with |- Permutation ?a ?b => assert (E : a = b) end; [|now rewrite E].
  clear P. induction F as [|t t' ts ts' R F IH]; [reflexivity|].
  destruct R as (_ & N & _ & G & _). cbn [map]. now rewrite N, G, IH.
Qed.
Lemma nodup_map_back : forall {A B} (f : A -> B) l, NoDup (map f l) -> NoDup l.
Proof.
  intros A B f l. induction l as [|a l IH]; intros H; [constructor|]. cbn in H. apply NoDup_cons_iff in H as [N H].
  constructor; [|auto]. intros I. apply N. now apply in_map.
Qed.
Lemma saved_distinct : forall w s text fs, sorts_tables (w_sort w) -> fits_u16 s -> to_text (w_sort w) s = Some text ->
  fs "x.json" = Some text -> (forall s', load_file w fs "x.json" = Loaded s' -> distinct_table_keys s') -> distinct_table_keys s.
Proof.
  intros w s text fs H Fit T F D. destruct (text_roundtrip _ _ _ H Fit T) as (s1 & N & R & Fit1).
  assert (Fit2 : fits_u16 (clean_schema s1)).
  { intros c C. unfold columns_of in C. cbn [clean_schema s_tables] in C. apply in_flat_map in C as (t & I & C).
    apply in_map_iff in I as (t0 & <- & I). cbn [clean_table t_cols] in C. apply in_map_iff in C as (c0 & <- & C).
    cbn [clean_column c_size c_scale]. apply Fit1. unfold columns_of. apply in_flat_map. eauto. }
  assert (L : load_schema_accepts "x.json" = true) by reflexivity.
  specialize (D _ (load_encoded w fs "x.json" text (clean_schema s1) L F R Fit2)). apply (decoded_keys _ _ H) in D.
  unfold distinct_table_keys. change (NoDup (keys_of (s_tables s))).
  refine (Permutation_NoDup (Permutation_sym (repaired_keys _ _ (normalize_repaired _ _ _ H N))) _).
  apply (nodup_map_back (fun k => (clean (fst k), clean (snd k)))). unfold keys_of in *. rewrite map_map. cbn [fst snd].
  cbn [clean_schema s_tables] in D. rewrite map_map in D. exact D.
Qed.
Lemma columns_order : forall s s' c, same_but_order s s' -> In c (columns_of s') -> In c (columns_of s).
Proof. intros s s' c (P & _) C. unfold columns_of in *. exact (flat_map_perm _ _ _ _ (Permutation_sym P) C). Qed.
Lemma save_agree : forall w w' name s s', sorts_tables (w_sort w) -> sorts_tables (w_sort w') -> same_but_order s s' -> fits_u16 s ->
  (forall out fs s0, In (name, out) (fst (save_schema w name s)) -> fs "x.json" = Some out ->
     load_file w fs "x.json" = Loaded s0 -> distinct_table_keys s0) ->
  save_schema w name s = save_schema w' name s'.
Proof.
  intros w w' name s s' H H' S Fit D. unfold save_schema in *. destruct (to_text (w_sort w) s) as [text|] eqn:T.
  - rewrite <- (text_agree (w_sort w) (w_sort w') s s' H H' S), T; [reflexivity|].
    apply (saved_distinct w s text (fun _ => Some text) H Fit T eq_refl). intros s0. apply (D text); [now left|reflexivity].
  - destruct (to_text (w_sort w') s') as [text|] eqn:T'; [|reflexivity].
    assert (R : forall c, In c (columns_of s') -> repairable c) by (apply (saved_iff _ _ H'); eauto).
    assert (X : exists text, to_text (w_sort w) s = Some text).
    { apply (saved_iff _ _ H). intros c C. apply R. apply (columns_order s' s); [|exact C].
      destruct S as (P & A & N & V). repeat split; auto. now symmetry. }
    destruct X as (x & X). congruence.
Qed.

(** ** The imports *)
Lemma res_map_perm : forall {A B} (f : A -> res B) l l', Permutation l l' ->
  match res_map f l, res_map f l' with
  | Ok r, Ok r' => Permutation r r'
  | Panic, Panic => True
  | _, _ => False
  end.
Proof.
  intros A B f l l' P. induction P as [|x l l' P IH|x y l|l l' l'' P1 IH1 P2 IH2]; cbn [res_map].
  - constructor.
  - destruct (f x); [|exact I]. destruct (res_map f l), (res_map f l'); auto.
  - destruct (f x), (f y); try exact I. destruct (res_map f l); [apply perm_swap|exact I].
  - destruct (res_map f l), (res_map f l'), (res_map f l''); try easy. now rewrite IH1.
Qed.
Lemma v1_agree : forall sortf sortf' s, sorts_v1 sortf -> sorts_v1 sortf' ->
  match import_v1 sortf s, import_v1 sortf' s with
  | Ok r, Ok r' => same_but_order r r'
  | Panic, Panic => True
  | _, _ => False
  end.
Proof.
  intros sortf sortf' s H H'. unfold import_v1.
  assert (P : Permutation (sortf (o_tables s)) (sortf' (o_tables s))) by (rewrite (proj1 (H _)), (proj1 (H' _)); reflexivity).
  generalize (res_map_perm (fun t => match res_map v1_normalize_col (o_cols t) with
                          | Panic => Panic
                          | Ok cs => Ok (v1_with_cols t cs)
                          end) _ _ P).
  destruct (res_map _ (sortf (o_tables s))), (res_map _ (sortf' (o_tables s))); try easy.
  intros Q. split; [|repeat split]. cbn [s_tables]. now apply Permutation_map.
Qed.
Lemma sheets_acc : forall wb gs acc, read_sheets wb gs acc =
  match read_sheets wb gs [] with inl r => inl (acc ++ r)%list | inr e => inr e end.
Proof.
  intros wb. induction gs as [|g gs IH]; intros acc; cbn [read_sheets]; [now rewrite app_nil_r|].
  destruct (read_group_sheet g (group_sheet wb g)) as [ts|e]; [|reflexivity]. rewrite IH, (IH ([] ++ ts)%list).
  destruct (read_sheets wb gs []) as [r|e]; [|reflexivity]. now rewrite app_assoc.
Qed.
Definition sheets_like (a b : list table + nat) : Prop :=
  match a, b with inl r, inl r' => Permutation r r' | inr _, inr _ => True | _, _ => False end.
Lemma sheets_perm : forall wb l l', Permutation l l' -> sheets_like (read_sheets wb l []) (read_sheets wb l' []).
Proof.
  intros wb l l' P. induction P as [|x l l' P IH|x y l|l l' l'' P1 IH1 P2 IH2]; cbn [read_sheets].
  - constructor.
  - destruct (read_group_sheet x (group_sheet wb x)) as [ts|e]; [|exact I]. rewrite sheets_acc, (sheets_acc wb l').
    unfold sheets_like in *. destruct (read_sheets wb l []), (read_sheets wb l' []); auto. cbn [app]. now apply Permutation_app_head.
  - destruct (read_group_sheet x (group_sheet wb x)) as [ts|e], (read_group_sheet y (group_sheet wb y)) as [us|e']; try exact I.
    cbn [app]. rewrite (sheets_acc wb l (us ++ ts)), (sheets_acc wb l (ts ++ us)). destruct (read_sheets wb l []); [|exact I].
    unfold sheets_like. apply Permutation_app_tail. apply Permutation_app_comm.
  - unfold sheets_like in *. destruct (read_sheets wb l []), (read_sheets wb l' []), (read_sheets wb l'' []); try easy. now rewrite IH1.
Qed.
Lemma xlsx_agree : forall ord ord' wb, iteration_order ord -> iteration_order ord' ->
  match import_xlsx ord wb, import_xlsx ord' wb with
  | inl r, inl r' => same_but_order r r'
  | inr _, inr _ => True
  | _, _ => False
  end.
Proof.
  intros ord ord' wb H H'. unfold import_xlsx.
  assert (P : Permutation (ord (group_names wb)) (ord' (group_names wb))).
  { rewrite (H (group_names wb)). symmetry. apply H'. }
  pose proof (sheets_perm wb _ _ P) as Q. unfold sheets_like in Q.
  destruct (read_sheets wb (ord _) []), (read_sheets wb (ord' _) []); try easy.
Qed.

(** ** The comparisons *)
Lemma single_order : forall {A} (ord ord' : list (nat * A) -> list (nat * A)) l, iteration_order ord -> iteration_order ord' ->
  NoDup (map fst l) -> (forall x y, In x l -> In y l -> fst x = fst y) -> ord l = ord' l.
Proof.
  intros A ord ord' l H H' D S. assert (L : l = [] \/ exists x, l = [x]).
  { destruct l as [|x [|y l]]; [now left|right; eauto|]. exfalso. cbn [map] in D. apply NoDup_cons_iff in D as [N _]. apply N. left.
    symmetry. apply S; cbn; auto. }
  pose proof (H l) as P. pose proof (H' l) as P'. destruct L as [->|(x & ->)].
  - apply Permutation_sym, Permutation_nil in P. apply Permutation_sym, Permutation_nil in P'. congruence.
  - apply Permutation_sym, Permutation_length_1_inv in P. apply Permutation_sym, Permutation_length_1_inv in P'. congruence.
Qed.
Lemma passes_selected : forall f t, passes f t = true <-> selected f t.
Proof. intros [g|] t; cbn; tauto. Qed.
Lemma with_pos_nth : forall {A} (l : list A) i x, In (i, x) (with_pos l) -> nth_error l i = Some x.
Proof.
  intros A l i x. unfold with_pos.
  assert (G : forall k, In (i, x) (combine (seq k (length l)) l) -> exists j, i = k + j /\ nth_error l j = Some x).
  { induction l as [|y l IH]; intros k H; [destruct H|]. cbn [length seq combine] in H. destruct H as [E|H].
    - injection E as -> ->. exists 0. split; [lia|reflexivity].
    - destruct (IH (S k) H) as (j & -> & N). exists (S j). split; [lia|exact N]. }
  intros H. destruct (G 0 H) as (j & -> & N). exact N.
Qed.

Section DiffOrder.
Context {CS : Type}.
Variables dt dt' : nat -> ident -> table -> table -> option (list CS * ident).
Variable drop_cs : ident -> string -> table -> CS.
Variable rename_cs : ident -> table -> table -> list CS * ident.
Variable create_cs : ident -> table -> option (list CS * ident).
Lemma scan_agree : forall f from ts id removed,
  (forall i t old id, In (i, t) ts -> passes f t = true -> tables_by_name from (t_name t) = Some old -> dt i id t old = dt' i id t old) ->
  scan_tables dt f from ts id removed = scan_tables dt' f from ts id removed.
Proof.
  intros f from. induction ts as [|[i t] ts IH]; intros id removed H; cbn [scan_tables]; [reflexivity|].
  destruct (passes f t) eqn:P; cbn [negb].
  - destruct (tables_by_name from (t_name t)) as [old|] eqn:T.
    + rewrite (H i t old _ (or_introl eq_refl) P T). destruct (dt' i (bump_major id) t old) as [[css id1]|]; [|reflexivity].
      cbv zeta. rewrite IH; [reflexivity|]. intros. eapply H; eauto. now right.
    + cbv zeta. rewrite IH; [reflexivity|]. intros. eapply H; eauto. now right.
  - apply IH. intros. eapply H; eauto. now right.
Qed.
(** what is known about the tables matched as renamed *)
Definition matched f from to (renamed : list (nat * (table * table))) : Prop :=
  NoDup (map fst renamed) /\ NoDup (map (fun r => t_name (snd (snd r))) renamed) /\
  forall i nw old, In (i, (nw, old)) renamed -> nth_error (s_tables to) i = Some nw /\ In old (s_tables from) /\ table_renames f from to nw.
Lemma matched_tables : forall f from to css id removed added renamed rest,
  scan_tables dt f (s_tables from) (with_pos (s_tables to)) new_id (ss_new (map t_name (s_tables from))) = Some (css, id, removed, added) ->
  find_renamed (tables_by_name (s_tables from)) same_columns added removed = (renamed, rest) -> matched f from to renamed.
Proof.
  intros f from to css id removed added renamed rest Es Ef.
  destruct (scan_spec dt drop_cs rename_cs create_cs _ _ _ _ _ _ _ _ _ Es) as [_ [Ka [K2 K3]]].
  specialize (K3 (ss_new_nodup _)).
  assert (LN : forall n r, tables_by_name (s_tables from) n = Some r -> t_name r = n).
  { intros n r Hr. now apply tables_by_name_some in Hr. }
  destruct (find_renamed_spec t_name _ _ LN _ _ _ _ K3 Ef) as [F1 [F2 [F3 F4]]]. split.
  - apply F4. rewrite Ka. assert (G : forall (l : list (nat * table)) p, NoDup (map fst l) -> NoDup (map fst (filter p l))).
    { clear. induction l as [|x l IH]; simpl; intros p D; auto. inversion D; subst.
      destruct (p x); simpl; auto. constructor; auto.
      intros C. apply H1. apply in_map_iff in C. destruct C as [y [E C]]. apply filter_In in C.
      apply in_map_iff. exists y. tauto. }
    apply G. apply with_pos_nodup.
  - split; [apply (Permutation_NoDup F2) in K3; exact (NoDup_app_l _ _ K3)|]. intros i nw old I. destruct (F3 _ _ _ I) as (A & B & C). rewrite Ka in A. apply filter_In in A as [A A'].
    pose proof (tables_by_name_some _ _ _ B) as [B' _]. split; [now apply with_pos_nth|]. split; [exact B'|].
    unfold is_added in A'. cbn [snd] in A'. apply andb_true_iff in A' as [S N]. split; [now apply passes_selected|]. split.
    + intros X. apply (proj2 (str_in_iff _ _)) in X. unfold in_names in N. rewrite X in N. discriminate.
    + exists old. split; [exact B'|]. split; [now apply same_columns_spec|].
      intros (u & U & SU & NU).
      assert (R : In (t_name old) removed).
      { eapply Permutation_in; [symmetry; exact F2|]. apply in_or_app. left. apply in_map_iff. exists (i, (nw, old)). auto. }
      apply K2 in R as [_ R]. apply R. apply with_pos_in in U as (k & U). exists (k, u). split; [exact U|].
      split; [now apply passes_selected|exact NU].
Qed.
Lemma schemas_agree : forall ord ord' f from to, iteration_order ord -> iteration_order ord' ->
  at_most_one (table_renames f from to) (s_tables to) ->
  (forall i t old id, nth_error (s_tables to) i = Some t -> passes f t = true -> tables_by_name (s_tables from) (t_name t) = Some old ->
     dt i id t old = dt' i id t old) ->
  diff_schemas dt drop_cs rename_cs create_cs ord f from to = diff_schemas dt' drop_cs rename_cs create_cs ord' f from to.
Proof.
  intros ord ord' f from to O O' One H. unfold diff_schemas. cbv zeta.
  rewrite <- (scan_agree f (s_tables from) (with_pos (s_tables to))).
  2:{ intros i t old id I. apply H. now apply with_pos_nth. }
  destruct (scan_tables dt f _ _ _ _) as [[[[css1 id1] removed1] added]|] eqn:Es; [|reflexivity].
  destruct (find_renamed _ same_columns added removed1) as [renamed removed2] eqn:Ef.
  destruct (matched_tables _ _ _ _ _ _ _ _ _ Es Ef) as [D [_ M]].
  rewrite (single_order ord ord' renamed O O' D); [reflexivity|].
  intros [i [a b]] [j [c d]] I J. destruct (M _ _ _ I) as (X & _ & R), (M _ _ _ J) as (Y & _ & S). exact (One i j a c X Y R S).
Qed.
End DiffOrder.

Section ColumnOrder.
Context {CS : Type}.
Lemma matched_columns : forall (dc : ident -> column -> column -> option (list CS * ident)) comments t old id0 css id removed added renamed rest,
  scan_columns dc (t_cols old) (with_pos (t_cols t)) id0 (ss_new (map c_name (t_cols old))) = Some (css, id, removed, added) ->
  find_renamed (column_name_map (t_cols old)) (fun a r => is_renamed a r (negb comments)) added removed = (renamed, rest) ->
  forall ord ord', iteration_order ord -> iteration_order ord' -> at_most_one (column_renames old t) (t_cols t) ->
  ord renamed = ord' renamed.
Proof.
  intros dc comments t old id0 css id removed added renamed rest Es Ef ord ord' O O' One.
  destruct (scan_columns_spec _ _ _ _ _ _ _ _ _ Es) as [_ [Ea [Er Nr]]].
  specialize (Nr (ss_new_nodup _)).
  assert (LN : forall n r, column_name_map (t_cols old) n = Some r -> c_name r = n).
  { intros n r Hr. now apply column_name_map_some in Hr. }
  destruct (find_renamed_spec c_name _ _ LN _ _ _ _ Nr Ef) as [F1 [F2 [F3 F4]]].
  apply single_order; [exact O|exact O'| |].
  - apply F4. rewrite Ea. assert (G : forall (l : list (nat * column)) p, NoDup (map fst l) -> NoDup (map fst (filter p l))).
    { clear. induction l as [|x l IH]; simpl; intros p D; auto. inversion D; subst.
      destruct (p x); simpl; auto. constructor; auto.
      intros C. apply H1. apply in_map_iff in C. destruct C as [y [E C]]. apply filter_In in C.
      apply in_map_iff. exists y. tauto. }
    apply G. apply with_pos_nodup.
  - assert (M : forall i c o, In (i, (c, o)) renamed -> nth_error (t_cols t) i = Some c /\ column_renames old t c).
    { intros i c o I. destruct (F3 _ _ _ I) as (A & B & C). rewrite Ea in A. apply filter_In in A as [A A'].
      split; [now apply with_pos_nth|].
      pose proof (column_name_map_some _ _ _ B) as [B' _].
      assert (R : In (c_name o) removed).
      { eapply Permutation_in; [symmetry; exact F2|]. apply in_or_app. left. apply in_map_iff. exists (i, (c, o)). auto. }
      split.
      - intros X. apply (proj2 (str_in_iff _ _)) in X. unfold is_added_col in A'. cbn [snd] in A'. rewrite X in A'. discriminate.
      - exists o. split; [exact B'|]. split.
        + intros X. apply Er in R as [_ R]. apply R. split; [now apply in_map|]. apply in_map_iff in X as (u & E & U).
          apply with_pos_in in U as (k & U). apply in_map_iff. exists (k, u). auto.
        + apply is_renamed_same in C. destruct C as (C1 & C2 & C3 & C4 & C5 & C6 & C7 & C8 & C9 & _).
          repeat split; auto. discriminate. }
    intros [i [a b]] [j [c d]] I J. destruct (M _ _ _ I) as (X & R), (M _ _ _ J) as (Y & S). exact (One i j a c X Y R S).
Qed.
End ColumnOrder.

Lemma table_agree : forall author comments suffix ord ord' id t old, iteration_order ord -> iteration_order ord' ->
  at_most_one (column_renames old t) (t_cols t) ->
  diff_table author comments suffix ord id t old = diff_table author comments suffix ord' id t old.
Proof.
  intros author comments suffix ord ord' id t old O O' One. unfold diff_table.
  destruct (emit author _ (SetTableComment t) _) as [css0 id0]. cbv zeta.
  destruct (scan_columns _ (t_cols old) (with_pos (t_cols t)) id0 _) as [[[[css1 id1] removed1] added]|] eqn:Es; [|reflexivity].
  destruct (find_renamed _ _ added removed1) as [renamed removed2] eqn:Ef.
  now rewrite (matched_columns _ _ _ _ _ _ _ _ _ _ _ Es Ef ord ord' O O' One).
Qed.
Lemma lq_table_agree : forall fk author comments suffix ord ord' id t old, iteration_order ord -> iteration_order ord' ->
  at_most_one (column_renames old t) (t_cols t) ->
  lq_diff_table fk author comments suffix ord id t old = lq_diff_table fk author comments suffix ord' id t old.
Proof.
  intros fk author comments suffix ord ord' id t old O O' One. unfold lq_diff_table.
  destruct (lq_emit author _ _ _ _) as [css0 id0]. cbv zeta.
  destruct (scan_columns _ (t_cols old) (with_pos (t_cols t)) id0 _) as [[[[css1 id1] removed1] added]|] eqn:Es; [|reflexivity].
  destruct (find_renamed _ _ added removed1) as [renamed removed2] eqn:Ef.
  now rewrite (matched_columns _ _ _ _ _ _ _ _ _ _ _ Es Ef ord ord' O O' One).
Qed.
Lemma few_columns : forall f from to t old, columns_renamed_once f from to -> In t (s_tables to) -> passes f t = true ->
  tables_by_name (s_tables from) (t_name t) = Some old -> at_most_one (column_renames old t) (t_cols t).
Proof.
  intros f from to t old H I P T. apply tables_by_name_some in T as [A B]. apply H; auto. now apply passes_selected.
Qed.
Lemma diff_agree : forall ordT ordC ordT' ordC' o from to,
  iteration_order ordT -> iteration_order ordT' -> (forall i, iteration_order (ordC i)) -> (forall i, iteration_order (ordC' i)) ->
  few_renames (do_filter o) from to -> get_diff ordT ordC o from to = get_diff ordT' ordC' o from to.
Proof.
  intros ordT ordC ordT' ordC' o from to T T' C C' F. unfold get_diff. cbv zeta. apply schemas_agree; auto; [apply F|].
  intros i t old id N P L. apply table_agree; auto. apply (few_columns _ _ _ _ _ (proj2 F)); auto. now apply nth_error_In in N.
Qed.
Lemma lq_agree : forall fk ordT ordC ordT' ordC' o from to,
  iteration_order ordT -> iteration_order ordT' -> (forall i, iteration_order (ordC i)) -> (forall i, iteration_order (ordC' i)) ->
  few_renames (lo_filter o) from to -> lq_diff fk ordT ordC o from to = lq_diff fk ordT' ordC' o from to.
Proof.
  intros fk ordT ordC ordT' ordC' o from to T T' C C' F. unfold lq_diff. cbv zeta. apply schemas_agree; auto; [apply F|].
  intros i t old id N P L. apply lq_table_agree; auto. apply (few_columns _ _ _ _ _ (proj2 F)); auto. now apply nth_error_In in N.
Qed.
Lemma md_agree : forall ord ord' from to css, iteration_order ord -> iteration_order ord' ->
  md_write ord from to css = md_write ord' from to css.
Proof.
  intros ord ord' from to css O O'. unfold md_write. f_equal.
  destruct (MarkdownProofs.report ord from to css O) as (n & S & I & _ & ->).
  destruct (MarkdownProofs.report ord' from to css O') as (n' & S' & I' & _ & ->). do 2 f_equal.
  apply strictly_increasing_unique; auto. intros x. now rewrite I, I'.
Qed.

(** the report does not show in which order the tables are renamed *)
Definition rename_changes (suffix : string) (nw old : table) : list change :=
  (if Nat.ltb 0 (ss_size (uq_name_set old)) then [DropUniqueConstraint (t_name old ++ suffix) old] else []) ++
  RenameTable old nw :: (if Nat.ltb 0 (ss_size (uq_name_set nw)) then [CreateUniqueConstraint (t_name nw ++ suffix) nw] else []).
Lemma rename_cs_changes : forall author suffix id nw old,
  all_changes (fst (rename_table_cs author suffix id nw old)) = rename_changes suffix nw old.
Proof.
  intros author suffix id nw old. unfold rename_table_cs, rename_changes. cbv zeta. rewrite !emit_changes. cbn [fst].
  destruct (Nat.ltb 0 (ss_size (uq_name_set old))); reflexivity.
Qed.
Lemma rename_tables_changes : forall author suffix l id,
  all_changes (fst (rename_tables (fun id nw old => rename_table_cs author suffix id nw old) l id)) =
  flat_map (fun r => rename_changes suffix (fst (snd r)) (snd (snd r))) l.
Proof.
  intros author suffix. induction l as [|[i [nw old]] l IH]; intros id; cbn [rename_tables flat_map]; [reflexivity|].
  generalize (rename_cs_changes author suffix (bump_major id) nw old). destruct (rename_table_cs author suffix (bump_major id) nw old) as [css id1].
  cbn [fst snd]. intros E. generalize (IH id1). destruct (rename_tables _ l id1) as [css' id2]. cbn [fst]. intros E'.
  now rewrite all_changes_app, E, E'.
Qed.
Lemma create_tables_changes : forall author l id, exists css id',
  create_tables (fun id t => Some ([mkCS (version id) author [CreateTable t]], id)) l id = Some (css, id') /\
  all_changes css = map CreateTable l.
Proof.
  intros author. induction l as [|t l IH]; intros id; cbn [create_tables]; [exists [], id; split; reflexivity|].
  destruct (IH (bump_major id)) as (css & id' & E & F). rewrite E. eexists. eexists. split; [reflexivity|]. cbn [app]. 
  unfold all_changes in *. cbn [flat_map cs_changes app map]. now rewrite F.
Qed.
Lemma flat_map_single : forall {A B} (h : A -> list B) l l', Permutation l l' -> NoDup l ->
  (forall x y, In x l -> In y l -> h x <> [] -> h y <> [] -> x = y) -> flat_map h l = flat_map h l'.
Proof.
  intros A B h l l' P D S.
  assert (N : forall l0, (forall x, In x l0 -> h x = []) -> flat_map h l0 = []).
  { induction l0 as [|x l0 IH]; intros H; [reflexivity|]. cbn. rewrite (H x (or_introl eq_refl)). apply IH. intros y Y. apply H. now right. }
  assert (O : forall x l0, NoDup l0 -> In x l0 -> (forall y, In y l0 -> y <> x -> h y = []) -> flat_map h l0 = h x).
  { intros x l0 D0 I H. apply in_split in I as (a & b & ->). rewrite flat_map_app. cbn [flat_map].
    apply NoDup_remove in D0 as [D0 NI].
    rewrite (N a), (N b), app_nil_r; [reflexivity| |]; intros y Y; apply H; try (apply in_or_app; cbn; auto);
      intros ->; apply NI; apply in_or_app; auto. }
  assert (E : (forall x, In x l -> h x = []) \/ exists x, In x l /\ h x <> []).
  { clear. induction l as [|x l [IH|(y & Y & IH)]]; [left; intros x []| |right; exists y; split; [now right|exact IH]].
    destruct (h x) eqn:H; [left; intros y [<-|Y]; auto|right; exists x; split; [now left|congruence]]. }
  destruct E as [E|(x & I & X)].
  - rewrite (N l), (N l'); auto. intros x I. apply E. eapply Permutation_in; [symmetry; exact P|exact I].
  - assert (H : forall y, In y l -> y <> x -> h y = []).
    { intros y Y NE. destruct (h y) eqn:Z; [reflexivity|]. exfalso. apply NE. apply S; auto. congruence. }
    rewrite (O x l D I H). symmetry. apply O.
    + exact (Permutation_NoDup P D).
    + exact (Permutation_in _ P I).
    + intros y Y. apply H. eapply Permutation_in; [symmetry; exact P|exact Y].
Qed.
Lemma filter_flat_map : forall {A B} (p : B -> bool) (h : A -> list B) l, filter p (flat_map h l) = flat_map (fun x => filter p (h x)) l.
Proof. intros A B p h. induction l as [|x l IH]; [reflexivity|]. cbn. now rewrite filter_app, IH. Qed.
Lemma rename_under : forall suffix n nw old, filter (MarkdownSpec.under n) (rename_changes suffix nw old) <> [] -> n = t_name nw \/ n = t_name old.
Proof.
  intros suffix n nw old. unfold rename_changes. rewrite filter_app. cbn [filter]. unfold MarkdownSpec.under.
  destruct (Nat.ltb 0 (ss_size (uq_name_set old))), (Nat.ltb 0 (ss_size (uq_name_set nw))); cbn [filter dep_table];
    destruct (String.eqb_spec (t_name old) n) as [->|]; auto; destruct (String.eqb_spec (t_name nw) n) as [->|]; auto;
    cbn; intros X; now destruct X.
Qed.
Lemma report_agree : forall ordT ordC ordT' ordC' o from to,
  iteration_order ordT -> iteration_order ordT' -> (forall i, iteration_order (ordC i)) -> (forall i, iteration_order (ordC' i)) ->
  columns_renamed_once (do_filter o) from to -> NoDup (map t_name (s_tables to)) ->
  exists css css', get_diff ordT ordC o from to = Some css /\ get_diff ordT' ordC' o from to = Some css' /\
    Permutation (all_changes css) (all_changes css') /\
    forall n, filter (MarkdownSpec.under n) (all_changes css) = filter (MarkdownSpec.under n) (all_changes css').
Proof.
  intros ordT ordC ordT' ordC' o from to T T' C C' F D.
  destruct (get_diff ordT ordC o from to) as [css|] eqn:G; [|exfalso; destruct (get_diff_total ordT ordC o from to) as (x & X); congruence].
  destruct (get_diff ordT' ordC' o from to) as [css'|] eqn:G'; [|exfalso; destruct (get_diff_total ordT' ordC' o from to) as (x & X); congruence].
  exists css, css'. split; [reflexivity|]. split; [reflexivity|].
  unfold get_diff in G, G'. cbv zeta in G, G'. set (author := choose_author (do_author o) to) in *. unfold diff_schemas in G, G'. cbv zeta in G, G'.
  rewrite <- (scan_agree (fun i id t old => diff_table author (do_comments o) (do_suffix o) (ordC i) id t old)) in G'.
  2:{ intros i t old id I P L. apply table_agree; auto. apply (few_columns _ _ _ _ _ F); auto. apply with_pos_nth in I. now apply nth_error_In in I. }
  destruct (scan_tables _ (do_filter o) _ _ _ _) as [[[[css1 id1] removed1] added]|] eqn:Es; [|discriminate].
  destruct (find_renamed _ same_columns added removed1) as [renamed removed2] eqn:Ef.
  destruct (matched_tables _ (fun id _ old => mkCS (version id) author [DropTable old]) (fun id nw old => rename_table_cs author (do_suffix o) id nw old)
     (fun id t => Some ([mkCS (version id) author [CreateTable t]], id)) _ _ _ _ _ _ _ _ _ Es Ef) as [D1 [D2 M]].
  destruct (drop_tables _ _ _ id1) as [css2 id2].
  generalize (rename_tables_changes author (do_suffix o) (ordT renamed) id2), (rename_tables_changes author (do_suffix o) (ordT' renamed) id2).
  destruct (rename_tables _ (ordT renamed) id2) as [css3 id3], (rename_tables _ (ordT' renamed) id2) as [css3' id3']. cbn [fst]. intros R R'.
  destruct (create_tables_changes author (not_renamed added renamed) id3) as (css4 & id4 & E4 & C4). rewrite E4 in G.
  destruct (create_tables_changes author (not_renamed added renamed) id3') as (css4' & id4' & E4' & C4'). rewrite E4' in G'.
  assert (X : css = (css1 ++ css2 ++ css3 ++ css4)%list) by congruence. assert (X' : css' = (css1 ++ css2 ++ css3' ++ css4')%list) by congruence.
  rewrite X, X', !all_changes_app, C4, C4', R, R'.
  assert (P : Permutation (ordT renamed) (ordT' renamed)) by (rewrite (T renamed); symmetry; apply T').
  split.
  - do 2 apply Permutation_app_head. apply Permutation_app_tail. now apply Permutation_flat_map.
  - intros n. rewrite !filter_app. do 2 f_equal. f_equal. rewrite !filter_flat_map. apply flat_map_single; [exact P| |].
    + apply (Permutation_NoDup (Permutation_sym (T renamed))). exact (nodup_map_back fst _ D1).
    + assert (U : forall a b i nw old, In (i, (nw, old)) renamed -> In (i, (a, b)) renamed -> nw = a /\ old = b).
      { intros a b i nw old I J. clear - D1 I J. induction renamed as [|[k [x y]] l IH]; [destruct I|].
        cbn [map] in D1. apply NoDup_cons_iff in D1 as [N D1].
        destruct I as [I|I], J as [J|J].
        - split; congruence.
        - exfalso. apply N. injection I as -> -> ->. apply in_map_iff. exists (i, (a, b)). auto.
        - exfalso. apply N. injection J as -> -> ->. apply in_map_iff. exists (i, (nw, old)). auto.
        - auto. }
      intros [i [a b]] [j [c d]] I J. apply (Permutation_in _ (T renamed)) in I. apply (Permutation_in _ (T renamed)) in J.
      cbn [fst snd]. intros A B. apply rename_under in A. apply rename_under in B.
      destruct (M _ _ _ I) as (X1 & Y1 & Z1), (M _ _ _ J) as (X2 & Y2 & Z2).
      assert (NN : forall x y, table_renames (do_filter o) from to x -> In y (s_tables from) -> t_name x <> t_name y).
      { intros x y (_ & N & _) Y E. apply N. rewrite E. now apply in_map. }
      destruct A as [->|A], B as [B|B].
      * assert (i = j); [|subst j; destruct (U _ _ _ _ _ I J); congruence].
        apply (proj1 (NoDup_nth_error (map t_name (s_tables to))) D).
        -- apply nth_error_Some. rewrite (map_nth_error t_name _ _ X1). discriminate.
        -- now rewrite (map_nth_error t_name _ _ X1), (map_nth_error t_name _ _ X2), B.
      * destruct (NN a d Z1 Y2 B).
      * subst n. destruct (NN c b Z2 Y1). congruence.
      * assert (G0 : In (i, (a, b)) renamed) by exact I. clear - D2 I J A B.
        induction renamed as [|[k [x y]] l IH]; [destruct I|]. cbn [map] in D2. apply NoDup_cons_iff in D2 as [N D2].
        destruct I as [I|I], J as [J|J].
        -- congruence.
        -- exfalso. apply N. injection I as -> -> ->. apply in_map_iff. exists (j, (c, d)). split; [cbn; congruence|exact J].
        -- exfalso. apply N. injection J as -> -> ->. apply in_map_iff. exists (i, (a, b)). split; [cbn; congruence|exact I].
        -- auto.
Qed.
Lemma md_order : forall ord ord' from to css css', iteration_order ord -> iteration_order ord' ->
  Permutation (all_changes css) (all_changes css') ->
  (forall n, filter (MarkdownSpec.under n) (all_changes css) = filter (MarkdownSpec.under n) (all_changes css')) ->
  md_write ord from to css = md_write ord' from to css'.
Proof.
  intros ord ord' from to css css' O O' P E. unfold md_write. f_equal.
  destruct (MarkdownProofs.report ord from to css O) as (n & S & I & _ & ->).
  destruct (MarkdownProofs.report ord' from to css' O') as (n' & S' & I' & _ & ->). f_equal.
  assert (N : n = n').
  { apply strictly_increasing_unique; auto. intros x. rewrite I, I'. split; intros (ch & H & Q); exists ch; (split; [|exact Q]).
    - exact (Permutation_in _ P H).
    - exact (Permutation_in _ (Permutation_sym P) H). }
  subst n'. apply flat_map_ext. intros x. unfold report_section. now rewrite (E x).
Qed.

(** ** The commands *)
Lemma with_schema_agree : forall w w' fs name k k', load_file w fs name = load_file w' fs name ->
  (forall s, load_file w fs name = Loaded s -> k s = k' s) -> with_schema w fs name k = with_schema w' fs name k'.
Proof.
  intros w w' fs name k k' E H. unfold with_schema. rewrite <- E. destruct (load_file w fs name); auto.
Qed.
Lemma default_nodup : NoDup (map fst default_models).
Proof. apply default_ok. Qed.
Lemma init_keys : distinct_table_keys init_schema.
Proof. unfold distinct_table_keys. constructor; [intros [X|[]]; discriminate X|]. constructor; [intros []|constructor]. Qed.

Theorem orders_agree : forall w w' fs c v, real_world w -> real_world w' -> same_libraries w w' -> order_free w fs c v ->
  run w fs c v = run w' fs c v.
Proof.
  intros w w' fs c v R R' L (K & I & G & D). cbv zeta in *.
  destruct R as (S & V & OT & OC & OK & OM & ON), R' as (S' & V' & OT' & OC' & OK' & OM' & ON').
  destruct L as (Ecamel & Elower & Esnake & Eplural & Ejoin & Esql & Eopen & Esave & Esheet & Eyaml & Efloat).
  assert (LI : load_file w fs (given v "input") = load_file w' fs (given v "input")).
  { apply load_agree; auto. intros s. apply K. cbn; auto. }
  assert (LF : load_file w fs (given v "from") = load_file w' fs (given v "from")).
  { apply load_agree; auto. intros s. apply K. cbn; auto. }
  assert (LT : load_file w fs (given v "to") = load_file w' fs (given v "to")).
  { apply load_agree; auto. intros s. apply K. cbn; auto. }
  unfold run in *. destruct (required_given c v) eqn:Q; [|reflexivity].
  assert (SV : forall s s' name, same_but_order s s' -> fits_u16 s ->
    (forall out fs' s0, In (name, out) (fst (save_schema w name s)) -> fs' "x.json" = Some out -> load_file w fs' "x.json" = Loaded s0 -> distinct_table_keys s0) ->
    save_schema w name s = save_schema w' name s').
  { intros s s' name A B C. apply save_agree; auto. }
  assert (ID : forall s, same_but_order s s) by (intros s; repeat split; auto).
  destruct c; cbn [action] in *.
  - unfold save_schema. rewrite <- (text_agree (w_sort w) (w_sort w') init_schema init_schema); auto. apply init_keys.
  - unfold import_mysql in *. destruct (fs _) as [text|]; [|reflexivity]. rewrite <- Esql. destruct (w_sql w text) as [st|]; [|reflexivity].
    unfold with_res in *. destruct (import_sql _ _ _ st) as [s|] eqn:E; [|reflexivity]. apply MysqlTables.import_sql_ok in E. subst s.
    apply SV; auto; [apply mysql_fits|]. intros out fs' s0. apply I. cbn; auto.
  - unfold import_ojson, with_res in *. destruct (fs _) as [text|]; [|reflexivity]. destruct (read_text text) as [j|]; [|reflexivity].
    destruct (v1_from_json _) as [s1|] eqn:J; [|reflexivity]. destruct (_ || _); [reflexivity|].
    pose proof (v1_agree _ _ s1 V V') as X. destruct (import_v1 (w_sort_v1 w) s1) as [s|] eqn:E, (import_v1 (w_sort_v1 w') s1) as [s'|]; try easy.
    apply SV; auto; [exact (v1_fits _ _ _ _ (fun l => proj1 (V l)) J E)|]. intros out fs' s0. apply I. cbn; auto.
  - unfold import_staruml_file, with_res in *. destruct (fs _) as [text|]; [|reflexivity]. rewrite <- Efloat.
    destruct (st_from_text _ text) as [root|]; [|reflexivity]. destruct (import_staruml root) as [[s|]|] eqn:E; try reflexivity.
    apply SV; auto; [exact (staruml_fits _ _ E)|]. intros out fs' s0. apply I. cbn; auto.
  - unfold import_xlsx_file in *. destruct (fs _) as [text|]; [|reflexivity]. rewrite <- Eopen. destruct (w_open_xlsx w text) as [wb|]; [|reflexivity].
    pose proof (xlsx_agree _ _ wb OK OK') as X. destruct (import_xlsx (w_ord_keys w) wb) as [s|] eqn:E, (import_xlsx (w_ord_keys w') wb) as [s'|]; try easy.
    apply SV; auto; [exact (xlsx_fits _ _ _ E)|]. intros out fs' s0. apply I. cbn; auto.
  - unfold export_dbml_file. apply with_schema_agree; [exact LI|]. reflexivity.
  - unfold export_quickdbd_file. apply with_schema_agree; [exact LI|]. reflexivity.
  - unfold export_mysql_file. apply with_schema_agree; [exact LI|]. reflexivity.
  - unfold export_xlsx_file. apply with_schema_agree; [exact LI|]. intros s _. rewrite <- Esheet, <- Esave. reflexivity.
  - unfold generate_gorm. apply with_schema_agree; [exact LI|]. intros s E. unfold output_file. rewrite <- Ecamel, <- Esnake, <- Ejoin.
    destruct (new_prefix_mapper _) as [pm|]; [|reflexivity]. cbn [with_res]. f_equal.
    rewrite (order_irrelevant (w_camel w) (w_snake w) (w_ord_models w) (w_ord_names w) (w_ord_models w') (w_ord_names w')); auto; [apply default_nodup|].
    intros t T P. cbn [go_filter go_embed] in *. exact (G eq_refl s t E T P).
  - unfold generate_graphql. apply with_schema_agree; [exact LI|]. intros s _. rewrite <- Ecamel, <- Elower, <- Eplural, <- Ejoin. reflexivity.
  - unfold generate_kt. apply with_schema_agree; [exact LI|]. intros s _. rewrite <- Ecamel, <- Elower, <- Esnake, <- Ejoin. reflexivity.
  - unfold generate_liquibase. apply with_schema_agree; [exact LI|]. intros s _. rewrite <- Efloat, <- Eyaml. reflexivity.
  - unfold generate_plantuml, output_file. apply with_schema_agree; [exact LI|]. intros s _. rewrite <- Ejoin. reflexivity.
  - unfold generate_pb. apply with_schema_agree; [exact LI|]. intros s _. rewrite <- Ecamel, <- Elower. reflexivity.
  - unfold generate_sqlalchemy. apply with_schema_agree; [exact LI|]. intros s _. rewrite <- Ecamel, <- Esnake. reflexivity.
  - unfold diff_flyway, with_schemas. apply with_schema_agree; [exact LF|]. intros a A. apply with_schema_agree; [exact LT|]. intros b B.
    destruct (D (or_introl eq_refl) a b A B) as [F|[X _]]; [|discriminate X].
    rewrite (diff_agree (w_ord_tables w) (w_ord_columns w) (w_ord_tables w') (w_ord_columns w')); auto.
  - unfold diff_liquibase, with_schemas. apply with_schema_agree; [exact LF|]. intros a A. apply with_schema_agree; [exact LT|]. intros b B.
    destruct (D (or_intror (or_introl eq_refl)) a b A B) as [F|[X _]]; [|discriminate X]. rewrite <- Efloat, <- Eyaml.
    rewrite (lq_agree (w_float_ok w) (w_ord_tables w) (w_ord_columns w) (w_ord_tables w') (w_ord_columns w')); auto.
  - unfold diff_md, with_schemas. apply with_schema_agree; [exact LF|]. intros a A. apply with_schema_agree; [exact LT|]. intros b B.
    destruct (D (or_intror (or_intror (or_introl eq_refl))) a b A B) as [F|(_ & F & N)].
    + rewrite (diff_agree (w_ord_tables w) (w_ord_columns w) (w_ord_tables w') (w_ord_columns w')); auto.
      destruct (get_diff _ _ _ a b) as [css|]; [|reflexivity]. f_equal. now apply md_agree.
    + destruct (report_agree (w_ord_tables w) (w_ord_columns w) (w_ord_tables w') (w_ord_columns w')
        (mkDiffOption (get_table_filter (given v "groups")) (flag_string DiffMd v "author") (flag_string DiffMd v "uniqueNameSuffix") (flag_bool DiffMd v "comments"))
        a b OT OT' OC OC' F N) as (css & css' & E & E' & P & U).
      change (get_table_filter (flag_string DiffMd v "groups")) with (get_table_filter (given v "groups")).
      rewrite E, E'. f_equal. now apply md_order.
Qed.

(** ** Commands that do not iterate over maps *)
Lemma no_maps : forall w w' fs c v, same_libraries w w' -> w_sort w = w_sort w' -> w_sort_v1 w = w_sort_v1 w' ->
  ~ In c [ImportXlsx; GenerateGorm; DiffFlyway; DiffLiquibase; DiffMd] -> run w fs c v = run w' fs c v.
Proof.
  intros w w' fs c v L S V N. destruct L as (Ecamel & Elower & Esnake & Eplural & Ejoin & Esql & Eopen & Esave & Esheet & Eyaml & Efloat).
  destruct w, w'. cbn in *. subst. destruct c; try reflexivity; exfalso; apply N; cbn; tauto.
Qed.

(** ** Cases *)
Definition backwards_world : world :=
  mkWorld (w_camel sample_world) (w_lower_camel sample_world) (w_snake sample_world) (w_plural sample_world) (w_join sample_world)
    (w_sort sample_world) (w_sort_v1 sample_world) (w_sql sample_world) (w_open_xlsx sample_world) (w_save_xlsx sample_world)
    (w_sheet_ok sample_world) (w_yaml sample_world) (w_float_ok sample_world)
    (fun l => rev l) (fun _ l => rev l) (fun l => rev l) (fun _ l => l) (fun _ l => rev l).
Lemma backwards_real : real_world backwards_world.
Proof.
  destruct sample_real as (S & V & _). split; [exact S|]. split; [exact V|].
  assert (R : forall A, iteration_order (fun l : list A => rev l)) by (intros A l; symmetry; apply Permutation_rev).
  split; [apply R|]. split; [intros i; apply R|]. split; [apply R|]. split; [intros i l; reflexivity|intros i; apply R].
Qed.
Definition order_old : string :=
  "{""tables"": [{""name"": ""a"", ""columns"": [{""name"": ""x"", ""type"": ""int""}]}, {""name"": ""b"", ""columns"": [{""name"": ""y"", ""type"": ""int""}]}, " ++
  "{""name"": ""e"", ""columns"": [{""name"": ""p"", ""type"": ""int""}, {""name"": ""q"", ""type"": ""text""}]}]}".
Definition order_new : string :=
  "{""tables"": [{""name"": ""c"", ""columns"": [{""name"": ""x"", ""type"": ""int""}]}, {""name"": ""d"", ""columns"": [{""name"": ""y"", ""type"": ""int""}]}, " ++
  "{""name"": ""e"", ""columns"": [{""name"": ""r"", ""type"": ""int""}, {""name"": ""s"", ""type"": ""text""}]}]}".
Definition order_models : string :=
  "{""tables"": [{""name"": ""t"", ""columns"": [{""name"": ""id"", ""type"": ""int""}, {""name"": ""created_at"", ""type"": ""datetime""}, " ++
  "{""name"": ""updated_at"", ""type"": ""datetime""}, {""name"": ""deleted_at"", ""type"": ""datetime""}, {""name"": ""name"", ""type"": ""text""}]}]}".
Definition order_files : files :=
  fun n => if String.eqb n "old.json" then Some order_old else if String.eqb n "new.json" then Some order_new else Some order_models.
Definition order_values : values :=
  option_values [("from", "old.json"); ("to", "new.json"); ("input", "models.json"); ("output", "out.go"); ("embed", "Base:name")].
Lemma orders_differ : forall c, In c [GenerateGorm; DiffFlyway; DiffLiquibase; DiffMd] -> order_shows c.
Proof.
  intros c C. exists sample_world, backwards_world, order_files, order_values.
  split; [exact sample_real|]. split; [exact backwards_real|]. split; [repeat split|]. split; [reflexivity|]. split; [reflexivity|].
  destruct C as [<-|[<-|[<-|[<-|[]]]]]; vm_compute; discriminate.
Qed.

(** two tables and one column have new names: a case for the report *)
Definition report_new : string :=
  "{""tables"": [{""name"": ""c"", ""columns"": [{""name"": ""x"", ""type"": ""int""}]}, {""name"": ""d"", ""columns"": [{""name"": ""y"", ""type"": ""int""}]}, " ++
  "{""name"": ""e"", ""columns"": [{""name"": ""p"", ""type"": ""int""}, {""name"": ""s"", ""type"": ""text""}]}]}".
Definition report_files : files := fun n => if String.eqb n "old.json" then Some order_old else if String.eqb n "new.json" then Some report_new else None.
Definition report_from : schema := schema_of (load_file sample_world report_files "old.json").
Definition report_to : schema := schema_of (load_file sample_world report_files "new.json").
Lemma report_free : order_free sample_world report_files DiffMd order_values.
Proof.
  assert (F : load_file sample_world report_files "old.json" = Loaded report_from) by (vm_compute; reflexivity).
  assert (T : load_file sample_world report_files "new.json" = Loaded report_to) by (vm_compute; reflexivity).
  assert (N : NoDup (map t_name (s_tables report_to))).
  { change (map t_name (s_tables report_to)) with ["c"; "d"; "e"]. repeat (constructor; [cbn; intuition discriminate|]). constructor. }
  split; [|split; [|split]].
  - intros name s [<-|[<-|[<-|[]]]].
    + change (load_file sample_world report_files (given order_values "input")) with LoadFailed. discriminate.
    + change (load_file sample_world report_files (given order_values "from")) with (load_file sample_world report_files "old.json"). rewrite F. intros E.
      assert (X : report_from = s) by congruence. rewrite <- X. unfold distinct_table_keys.
      change (map (fun t : table => (t_group t, t_name t)) (s_tables report_from)) with [("", "a"); ("", "b"); ("", "e")].
      repeat (constructor; [cbn; intuition discriminate|]). constructor.
    + change (load_file sample_world report_files (given order_values "to")) with (load_file sample_world report_files "new.json"). rewrite T. intros E.
      assert (X : report_to = s) by congruence. rewrite <- X. unfold distinct_table_keys.
      change (map (fun t : table => (t_group t, t_name t)) (s_tables report_to)) with [("", "c"); ("", "d"); ("", "e")].
      repeat (constructor; [cbn; intuition discriminate|]). constructor.
  - intros C. exfalso. cbn in C. intuition discriminate.
  - discriminate.
  - intros _ from to. change (given order_values "from") with "old.json". change (given order_values "to") with "new.json". rewrite F, T. intros E E'.
    assert (X : report_from = from) by congruence. assert (X' : report_to = to) by congruence. rewrite <- X, <- X'. right. split; [reflexivity|]. split; [|exact N].
    intros t old I _ J Q. unfold at_most_one.
    assert (G : forall c, In c (t_cols t) -> column_renames old t c -> c_name c = "s").
    { clear - I J Q. vm_compute in I, J. destruct I as [<-|[<-|[<-|[]]]], J as [<-|[<-|[<-|[]]]]; try (vm_compute in Q; discriminate Q).
      intros c C (NI & _). vm_compute in C. destruct C as [<-|[<-|[]]]; [|reflexivity]. exfalso. apply NI. vm_compute. now left. }
    intros i j x y A B PX PY.
    assert (SX : c_name x = "s") by (apply G; [now apply nth_error_In in A|exact PX]).
    assert (SY : c_name y = "s") by (apply G; [now apply nth_error_In in B|exact PY]).
    assert (D : NoDup (map c_name (t_cols t))).
    { clear - I. vm_compute in I. destruct I as [<-|[<-|[<-|[]]]]; vm_compute; repeat (constructor; [cbn; intuition discriminate|]); constructor. }
    apply (proj1 (NoDup_nth_error _) D).
    + apply nth_error_Some. rewrite (map_nth_error c_name _ _ A). discriminate.
    + now rewrite (map_nth_error c_name _ _ A), (map_nth_error c_name _ _ B), SX, SY.
Qed.
