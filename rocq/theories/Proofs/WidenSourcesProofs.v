(** Adding columns to the tables of a schema: sources of programs (C140) *)
From Coq Require Import String Ascii List NArith ZArith Bool Lia Permutation.
From Verif.Model Require Import GoString Util Octopus Common Gorm Protobuf.
From Verif.Spec Require Import DiffSpec Text Reading GormSpec LocalSpec WidenSpec WidenSources.
From Verif.Proofs Require Import StringLemmas ListLemmas UtilProofs LocalProofs WidenProofs GormProofs.
Import ListNotations.
Local Open Scope string_scope.

Lemma widened_found : forall ts ts' n, Forall2 widened_table ts ts' ->
  match table_by_name ts n, table_by_name ts' n with
  | Some t, Some t' => widened_table t t'
  | None, None => True
  | _, _ => False
  end.
Proof.
  intros ts ts' n F. induction F as [|t t' ts ts' W F IH]; cbn [table_by_name]; [exact I|].
  destruct W as [N W]. rewrite N. destruct (String.eqb (t_name t) n); [split; assumption|exact IH].
Qed.
Lemma column_found : forall cs cs' n c, sub cs cs' -> column_by_name cs n = Some c -> exists c', column_by_name cs' n = Some c' /\ c_name c' = c_name c.
Proof.
  intros cs cs' n c S. induction S as [|x l l' S IH|x l l' S IH]; cbn [column_by_name]; intros E; [discriminate| |].
  - destruct (String.eqb_spec (c_name x) n) as [Q|Q]; [injection E as <-; exists x; split; reflexivity|auto].
  - destruct (String.eqb_spec (c_name x) n) as [Q|Q]; [|auto]. exists x. split; [reflexivity|]. rewrite Q.
    clear -E. induction l as [|y l IH]; [discriminate|]. cbn [column_by_name] in E.
    destruct (String.eqb_spec (c_name y) n) as [Q|Q]; [injection E as <-; now symmetry|auto].
Qed.

(** ** Go *)

Lemma extract_exact : forall m t, NoDup (map fst m) -> one_fits m t ->
  (exists n cols, In (n, cols) m /\ fits_table t cols /\ forall om, iteration_order om -> extract_models om m (map c_name (t_cols t)) = [(n, cols)]) \/
  ((forall n cols, In (n, cols) m -> ~ fits_table t cols) /\ forall om, iteration_order om -> extract_models om m (map c_name (t_cols t)) = []).
Proof.
  intros m t D U. destruct (some_fits t m) as [[n [cols [I F]]]|N].
  - left. exists n, cols. split; [exact I|]. split; [exact F|]. intros om OM. apply loop_one.
    + now apply om_nodup.
    + exact (Permutation_in _ (Permutation_sym (OM m)) I).
    + intros x X. apply start_set. now apply F.
    + intros n' c' J G. apply (U n' c' n cols); try assumption; [exact (Permutation_in _ (OM m) J)|].
      intros x X. now apply start_set, G.
  - right. split; [exact N|]. intros om OM. apply loop_none. intros n c J.
    destruct (forallb (fun k => str_in k (map c_name (t_cols t))) c) eqn:G.
    + exfalso. apply (N n c); [exact (Permutation_in _ (OM m) J)|]. intros x X. rewrite forallb_forall in G. apply str_in_iff. auto.
    + apply forallb_false_in in G as [x [X G]]. exists x. split; [exact X|]. intros K. apply start_set in K.
      apply str_in_iff in K. congruence.
Qed.
Lemma fits_wider : forall t t' cols, sub (t_cols t) (t_cols t') -> fits_table t cols -> fits_table t' cols.
Proof. intros t t' cols S F x X. apply (sub_in (map c_name (t_cols t))); [now apply sub_map|now apply F]. Qed.
Lemma extract_kept : forall m t t', NoDup (map fst m) -> sub (t_cols t) (t_cols t') -> one_fits m t' -> same_models m t t' ->
  exists used, (length used <= 1)%nat /\ forall om om', iteration_order om -> iteration_order om' ->
    extract_models om m (map c_name (t_cols t)) = used /\ extract_models om' m (map c_name (t_cols t')) = used.
Proof.
  intros m t t' D S U M.
  assert (V : one_fits m t) by (intros n c n' c' I J F G; apply (U n c n' c' I J); now apply (fits_wider t)).
  destruct (extract_exact m t D V) as [[n [c [I [F E]]]]|[N E]]; destruct (extract_exact m t' D U) as [[n' [c' [I' [F' E']]]]|[N' E']].
  - exists [(n, c)]. split; [cbn; lia|]. intros om om' O O'. split; [now apply E|]. rewrite (E' om' O').
    assert (Q : n' = n) by (apply (U n' c' n c); try assumption; now apply (fits_wider t)). subst n'.
    f_equal. f_equal. clear -D I I'. induction m as [|[k v] m IH]; [destruct I|]. inversion D as [|? ? X D']; subst. cbn [map fst] in X.
    destruct I as [A|A], I' as [B|B].
    + congruence.
    + injection A as -> ->. exfalso. apply X. now apply (in_map fst) in B.
    + injection B as -> ->. exfalso. apply X. now apply (in_map fst) in A.
    + now apply IH.
  - exfalso. apply (N' n c I). now apply (fits_wider t).
  - exfalso. apply (N n' c' I'). now apply (M n').
  - exists []. split; [cbn; lia|]. intros om om' O O'. split; [now apply E|now apply E'].
Qed.

(** [g'] has the fields of [g], and more *)
Definition wider (g g' : go_struct) : Prop :=
  gs_name g' = gs_name g /\ gs_models g' = gs_models g /\ t_name (gs_table g') = t_name (gs_table g) /\
  t_indices (gs_table g') = t_indices (gs_table g) /\ length (gs_unique g') = length (gs_unique g) /\
  sub (gs_fields g) (gs_fields g') /\ sub (gs_assocs g) (gs_assocs g').

Section Gorm.
Variables camel snake : string -> string.
Variables om on om' on' : nat -> models -> models.
Hypothesis OM : forall k, iteration_order (om k).
Hypothesis ON : forall k, iteration_order (on k).
Hypothesis OM' : forall k, iteration_order (om' k).
Hypothesis ON' : forall k, iteration_order (on' k).

Lemma struct_name_kept : forall remove pm t t', widened_table t t' -> struct_name camel remove pm t' = struct_name camel remove pm t.
Proof. intros remove pm t t' [N [G [C _]]]. unfold struct_name. now rewrite N, G, C. Qed.
Lemma assoc_wider : forall s s' remove pm c, widened s s' -> sub (go_assoc_of camel s remove pm c) (go_assoc_of camel s' remove pm c).
Proof.
  intros s s' remove pm c [_ [_ [_ F]]]. unfold go_assoc_of, find_reference. destruct (c_ref c) as [r|]; [|constructor].
  pose proof (widened_found _ _ (ref_table r) F) as W.
  destruct (table_by_name (s_tables s) (ref_table r)) as [t|]; [|apply sub_none].
  destruct (table_by_name (s_tables s') (ref_table r)) as [t'|]; [|destruct W].
  destruct (column_by_name (t_cols t) (ref_column r)) as [d|] eqn:E; [|apply sub_none].
  destruct (column_found _ _ _ _ (proj2 (proj2 (proj2 (proj2 (proj2 W))))) E) as [d' [-> Q]]. rewrite Q, (struct_name_kept remove pm t t' W). apply sub_refl.
Qed.
Lemma sub_flat_sub : forall {A B} (f g : A -> list B) l l', (forall x, sub (f x) (g x)) -> sub l l' -> sub (flat_map f l) (flat_map g l').
Proof.
  intros A B f g l l' H S. induction S as [|x l l' S IH|x l l' S IH]; cbn [flat_map]; [constructor| |].
  - now apply sub_app.
  - now apply sub_left.
Qed.
Lemma struct_wider : forall m s s' remove pm t t' k, NoDup (map fst m) -> widened s s' -> widened_table t t' -> one_fits m t' -> same_models m t t' ->
  unique_kept t t' ->
  wider (new_go_struct camel snake (om k) (on k) m s remove pm t) (new_go_struct camel snake (om' k) (on' k) m s' remove pm t').
Proof.
  intros m s s' remove pm t t' k D W T U M Q. pose proof T as T0. destruct T as [N [G [C [E [X S]]]]].
  destruct (extract_kept m t t' D S U M) as [used [L K]]. destruct (K (om k) (om' k) (OM k) (OM' k)) as [K1 K2].
  unfold new_go_struct. cbv zeta. rewrite !col_names, K1, K2. unfold models_names.
  rewrite (short_order used (on k) L (ON k)), (short_order used (on' k) L (ON' k)).
  unfold wider. cbn [gs_name gs_models gs_table gs_unique gs_fields gs_assocs].
  split; [now apply struct_name_kept|]. split; [reflexivity|]. split; [exact N|]. split; [exact X|]. split; [|split].
  - assert (H : forall cs, length (filter (fun f => c_uq (go_col f)) (map (new_go_field camel snake) cs)) = length (filter c_uq cs)).
    { induction cs as [|c cs IH]; [reflexivity|]. cbn [map filter]. change (go_col (new_go_field camel snake c)) with c.
      destruct (c_uq c); cbn [length]; now rewrite IH. }
    rewrite !H. unfold unique_kept, unique_of in Q. now rewrite Q.
  - apply sub_filter. now apply sub_map.
  - apply sub_flat_sub; [|exact S]. intros c. now apply assoc_wider.
Qed.
Lemma structs_wider : forall m s s' remove pm, NoDup (map fst m) -> widened s s' -> forall ts ts',
  Forall2 (fun t t' => widened_table t t' /\ one_fits m t' /\ same_models m t t' /\ unique_kept t t') ts ts' -> forall k,
  Forall2 wider (go_structs_from camel snake k om on m s remove pm ts) (go_structs_from camel snake k om' on' m s' remove pm ts').
Proof.
  intros m s s' remove pm D W ts ts' F. induction F as [|t t' ts ts' [A [B [C E]]] F IH]; intros k; cbn [go_structs_from]; constructor.
  - now apply struct_wider.
  - apply IH.
Qed.

Definition go_lines (o : gorm_opt) (g : go_struct) : list string :=
  (gs_models g ++ map (fun f => field_line (go_name f) (go_type f) (field_tags (unique_name (go_suffix o) g) (gs_table g) f)) (gs_fields g)
   ++ map (assoc_line (go_pointer o)) (gs_assocs g))%list.
Lemma go_lines_wider : forall o g g', wider g g' -> sub (go_lines o g) (go_lines o g').
Proof.
  intros o g g' [N [M [T [I [U [F A]]]]]]. unfold go_lines. rewrite M. apply sub_app; [apply sub_refl|]. apply sub_app.
  - apply sub_map2; [|exact F]. intros f _. f_equal. unfold unique_name. rewrite U, T. unfold field_tags. now rewrite I.
  - now apply sub_map.
Qed.

Lemma gorm_widens : forall m o g s s', go_filter o = get_table_filter g -> NoDup (map fst m) -> widened s s' ->
  Forall2 unique_kept (s_tables s) (s_tables s') ->
  Forall2 (same_models (embed_models m (go_embed o))) (s_tables s) (s_tables s') ->
  (forall t, In t (s_tables s') -> one_fits (embed_models m (go_embed o)) t) ->
  only_adds (fst (gorm_generate camel snake om on m o s)) (fst (gorm_generate camel snake om' on' m o s')).
Proof.
  intros m o g s s' Fo D W Q M U. apply lines_adds. unfold gorm_generate. cbv zeta. cbn [fst]. unfold go_structs. rewrite Fo.
  set (m' := embed_models m (go_embed o)) in *.
  assert (D' : NoDup (map fst m')).
  { unfold m', embed_models. destruct (String.eqb (go_embed o) ""); [exact D|].
    destruct (parse_embed (go_embed o)) as [[n c]|]; [now apply register_nodup|exact D]. }
  assert (F : Forall2 (fun t t' => widened_table t t' /\ one_fits m' t' /\ same_models m' t t' /\ unique_kept t t') (s_tables s) (s_tables s')).
  { destruct W as [_ [_ [_ F]]]. clear -F Q M U. revert Q M U. induction F as [|t t' ts ts' X F IH]; intros Q M U; [constructor|].
    inversion Q; inversion M; subst. constructor.
    - split; [exact X|]. split; [apply U; now left|]. split; assumption.
    - apply IH; try assumption. intros u I. apply U. now right. }
  apply (filter_both _ (passes (get_table_filter g))) in F; [|intros x y [[_ [E _]] _]; now apply passes_group].
  pose proof (structs_wider m' s s' (go_remove o) (go_prefix o) D' W _ _ F 0) as S. clear F.
  set (gs := go_structs_from camel snake 0 om on m' s (go_remove o) (go_prefix o) (filter (passes (get_table_filter g)) (s_tables s))) in *.
  set (gs' := go_structs_from camel snake 0 om' on' m' s' (go_remove o) (go_prefix o) (filter (passes (get_table_filter g)) (s_tables s'))) in *.
  clearbody gs gs'. set (pkg := if String.eqb (go_package o) "" then "main" else go_package o).
  set (imp := fun i : string => String "009" "" ++ quote_mark ++ i ++ quote_mark).
  set (tail := fun g => "}" ++ nl1 ++ nl1 ++ "func (c *" ++ gs_name g ++ ") TableName() string { return " ++ quote_mark ++ t_name (gs_table g)
    ++ quote_mark ++ " }" ++ nl1).
  set (body := fun g => ("type " ++ gs_name g ++ " struct {") ++ String.concat "" (map (fun l => nl ++ (String "009" "" ++ l)) (go_lines o g)) ++ nl ++ tail g).
  assert (E : forall l, header_text pkg (gorm_imports l) ++ String.concat "" (map (struct_text o) l) =
    ("package " ++ pkg ++ nl1 ++ nl1 ++ "import (") ++ String.concat "" (map (fun i => nl ++ imp i) (gorm_imports l)) ++ nl
    ++ ")" ++ nl ++ "" ++ nl ++ String.concat "" (map (fun g => body g ++ nl) l) ++ "").
  { intros l. unfold header_text. rewrite app_nil_r_s, !app_assoc_s.
    assert (X : forall g, body g ++ nl = struct_text o g).
    { intros h. unfold body, tail, struct_text, go_lines. cbv zeta. rewrite !app_assoc_s. reflexivity. }
    rewrite (map_ext _ _ X). reflexivity. }
  rewrite !E, !lines_more, !lines_nl, !lines_pieces. apply sub_app; [apply sub_refl|]. apply sub_app.
  - apply sub_flat. unfold gorm_imports. apply slice_sub; try (apply add_all_nodup; constructor).
    intros x I. apply add_all_in in I as [[]|I]. apply add_all_in. right.
    clear -S I. induction S as [|h h' gs gs' X S IH]; [exact I|]. cbn [flat_map] in I |- *. apply in_app_or in I as [I|I]; apply in_or_app; [left|right; now apply IH].
    destruct X as [_ [M [_ [_ [_ [F _]]]]]]. unfold struct_imports in *. rewrite M. apply in_app_or in I as [I|I]; apply in_or_app; [now left|right].
    apply (sub_in _ _ x (sub_flat go_imports _ _ F) I).
  - repeat (apply sub_app; [apply sub_refl|]). apply sub_app; [|apply sub_refl]. eapply sub_flats; [|exact S].
    intros h h' X. pose proof (go_lines_wider o h h' X) as L. destruct X as [N [_ [T _]]]. unfold body. rewrite !lines_more. unfold tail. rewrite N, T.
    apply sub_app; [apply sub_refl|]. apply sub_app; [|apply sub_refl]. now apply sub_flat.
Qed.
End Gorm.

(** ** Protocol Buffers *)

Definition pwider (m m' : pb_message) : Prop :=
  pm_name m' = pm_name m /\ sub (pm_fields m) (pm_fields m') /\ sub (pm_relations m) (pm_relations m') /\ incl (pm_imports m) (pm_imports m').

Section Proto.
Variables camel lc : string -> string.
Variable o : pb_option.

Lemma message_name_kept : forall t t', widened_table t t' -> pb_message_name camel o t' = pb_message_name camel o t.
Proof. intros t t' [N [G _]]. unfold pb_message_name. now rewrite N, G. Qed.
Lemma fields_app : forall cs more tag, exists r, pb_fields lc tag (cs ++ more) = (pb_fields lc tag cs ++ r)%list.
Proof.
  induction cs as [|c cs IH]; intros more tag; cbn [app pb_fields]; [eexists; reflexivity|].
  destruct (IH more (tag + 1)%Z) as [r ->]. exists r. reflexivity.
Qed.
Lemma relations_app : forall s s' more, widened s s' -> forall cs rels', pb_relations camel o s' (cs ++ more) = Ok rels' ->
  exists rels r, pb_relations camel o s cs = Ok rels /\ rels' = (rels ++ r)%list.
Proof.
  intros s s' more [_ [_ [_ F]]]. induction cs as [|c cs IH]; intros rels' E; cbn [app pb_relations] in *.
  - exists [], rels'. split; reflexivity.
  - destruct (c_ref c) as [r|]; [|now apply IH]. pose proof (widened_found _ _ (ref_table r) F) as W.
    destruct (table_by_name (s_tables s') (ref_table r)) as [u'|]; [|discriminate].
    destruct (table_by_name (s_tables s) (ref_table r)) as [u|]; [|destruct W].
    destruct (pb_relations camel o s' (cs ++ more)) as [l'|]; [|discriminate]. injection E as <-.
    destruct (IH l' eq_refl) as [l [x [-> ->]]]. rewrite (message_name_kept u u' W). eexists. exists x. split; reflexivity.
Qed.
Lemma no_relations : forall s cs, (forall c, In c cs -> c_ref c = None) -> pb_relations camel o s cs = Ok [].
Proof.
  intros s cs H. induction cs as [|c cs IH]; [reflexivity|]. cbn [pb_relations]. rewrite (H c (or_introl eq_refl)). apply IH. intros d I. apply H. now right.
Qed.
Lemma tags_app : forall a b start i, exists r, pb_tag_relations lc start i (a ++ b) = (pb_tag_relations lc start i a ++ r)%list.
Proof.
  induction a as [|[ty rep] a IH]; intros b start i; cbn [app pb_tag_relations]; [eexists; reflexivity|].
  destruct (IH b start (i + 1)%Z) as [r ->]. exists r. reflexivity.
Qed.
Lemma field_imports_in : forall fs acc x, In x (fold_left (fun acc f => if String.eqb (pf_import f) "" then acc else ss_add acc (pf_import f)) fs acc) <->
  In x acc \/ exists f, In f fs /\ pf_import f = x /\ x <> "".
Proof.
  induction fs as [|f fs IH]; intros acc x; cbn [fold_left].
  - split; [tauto|]. intros [H|[f [[] _]]]; exact H.
  - rewrite IH. destruct (String.eqb_spec (pf_import f) "") as [E|E].
    + split; intros [H|[g [G [P Q]]]]; try tauto; right; exists g; [cbn; tauto|]. destruct G as [<-|G]; [congruence|tauto].
    + rewrite (add_all_in [pf_import f] acc x : In x (ss_add acc (pf_import f)) <-> _). cbn [In]. split.
      * intros [[H|[H|[]]]|[g [G P]]]; [tauto| |]; right; [exists f|exists g]; [|tauto]. split; [tauto|]. split; [exact H|congruence].
      * intros [H|[g [[<-|G] [P Q]]]]; [tauto| |right; exists g; tauto]. left. right. left. exact P.
Qed.

Lemma message_wider : forall s s' t t' m', widened s s' -> widened_table t t' -> appended t t' -> numbers_stay (po_start o) (po_decr o) t t' ->
  pb_new_message camel lc o s' t' = Ok m' -> exists m, pb_new_message camel lc o s t = Ok m /\ pwider m m'.
Proof.
  intros s s' t t' m' W T [more A] NS E. unfold pb_new_message in *. cbv zeta in *.
  destruct (pb_relations camel o s' (t_cols t')) as [rels'|] eqn:R; [|discriminate]. injection E as <-.
  rewrite A in R. destruct (relations_app s s' more W _ _ R) as [rels [r [Q ->]]]. rewrite Q. eexists. split; [reflexivity|].
  unfold pwider. cbn [pm_name pm_fields pm_relations pm_imports]. destruct (fields_app (t_cols t) more 1%Z) as [fr FE].
  split; [now apply message_name_kept|]. split; [|split].
  - rewrite A, FE. rewrite <- (app_nil_r (pb_fields lc 1 (t_cols t))) at 1. apply sub_app; [apply sub_refl|apply sub_none].
  - destruct NS as [N|[N|[N L]]].
    + rewrite (no_relations s _ N) in Q. injection Q as <-. apply sub_none.
    + assert (more = []) as -> by (rewrite N in A; rewrite <- (app_nil_r (t_cols t)) in A at 1; now apply app_inv_head in A).
      rewrite app_nil_r in R.
      assert (r = []) as ->.
      { clear -R Q W. destruct (relations_app s s' [] W (t_cols t) (rels ++ r)%list) as [x [y [X Y]]]; [now rewrite app_nil_r|].
        assert (K : forall cs l l', pb_relations camel o s cs = Ok l -> pb_relations camel o s' cs = Ok l' -> length l = length l').
        { clear -o. induction cs as [|c cs IH]; intros l l' E E'; cbn [pb_relations] in *; [congruence|].
          destruct (c_ref c); [|now apply IH]. destruct (table_by_name (s_tables s) (ref_table r)); [|discriminate].
          destruct (table_by_name (s_tables s') (ref_table r)); [|discriminate].
          destruct (pb_relations camel o s cs) as [a|]; [|discriminate]. destruct (pb_relations camel o s' cs) as [b|]; [|discriminate].
          injection E as <-. injection E' as <-. cbn [length]. f_equal. now apply IH. }
        pose proof (K _ _ _ Q R) as Z. rewrite app_length in Z. destruct r; [reflexivity|]. cbn in Z. lia. }
      rewrite app_nil_r, N. apply sub_refl.
    + assert (P : forall x n, (Z.of_nat x <= Z.of_nat (length (t_cols t')))%Z -> pb_rel_start (po_start o) (po_decr o) (Z.of_nat x) n = po_start o).
      { intros x n H. unfold pb_rel_start. rewrite N.
        destruct (Z.ltb_spec (po_start o) 0) as [B|B]; [lia|]. destruct (Z.leb_spec (po_start o) (Z.of_nat x)) as [C|C]; [lia|]. reflexivity. }
      rewrite !P; [|lia|rewrite A, app_length; lia]. destruct (tags_app rels r (po_start o) 0%Z) as [x ->].
      rewrite <- (app_nil_r (pb_tag_relations lc (po_start o) 0 rels)) at 1. apply sub_app; [apply sub_refl|apply sub_none].
  - intros x I. rewrite A, FE.
    assert (G : forall l, In x (ss_slice l) <-> In x l).
    { intros l. unfold ss_slice, ss_slice_ord. split; intros H.
      - exact (Permutation_in _ (sort_strings_perm l) H).
      - exact (Permutation_in _ (Permutation_sym (sort_strings_perm l)) H). }
    apply (proj1 (G _)) in I. apply (proj2 (G _)). apply field_imports_in in I as [[]|[f [J K]]]. apply field_imports_in. right. exists f. split; [|exact K]. apply in_or_app. now left.
Qed.
Lemma messages_wider : forall s s', widened s s' -> forall ts ts',
  Forall2 (fun t t' => widened_table t t' /\ appended t t' /\ numbers_stay (po_start o) (po_decr o) t t') ts ts' -> forall ms',
  res_map (pb_new_message camel lc o s') ts' = Ok ms' -> exists ms, res_map (pb_new_message camel lc o s) ts = Ok ms /\ Forall2 pwider ms ms'.
Proof.
  intros s s' W ts ts' F. induction F as [|t t' ts ts' [A [B C]] F IH]; intros ms' E; cbn [res_map] in *.
  - injection E as <-. exists []. split; [reflexivity|constructor].
  - destruct (pb_new_message camel lc o s' t') as [m'|] eqn:M; [|discriminate]. destruct (message_wider s s' t t' m' W A B C M) as [m [-> P]].
    destruct (res_map (pb_new_message camel lc o s') ts') as [l'|]; [|discriminate]. injection E as <-.
    destruct (IH l' eq_refl) as [l [-> Q]]. exists (m :: l). split; [reflexivity|now constructor].
Qed.
End Proto.

Definition pb_line (ty name : string) (tag : Z) : string := "  " ++ ty ++ " " ++ name ++ " = " ++ itoa_z tag ++ ";".
Definition pb_lines (m : pb_message) : list string :=
  (map (fun x => pb_line (pf_type x) (pf_name x) (pf_tag x)) (pm_fields m) ++ map (fun x => pb_line (pr_type x) (pr_name x) (pr_tag x)) (pm_relations m))%list.
Lemma concat_two : forall l l', String.concat "" (l ++ l')%list = String.concat "" l ++ String.concat "" l'.
Proof.
  assert (C : forall x l, String.concat "" (x :: l) = x ++ String.concat "" l) by (intros x [|y l]; cbn; [now rewrite app_nil_r_s|reflexivity]).
  induction l as [|x l IH]; intros l'; [reflexivity|]. cbn [app]. rewrite !C, IH, app_assoc_s. reflexivity.
Qed.
Lemma pb_text_widens : forall pkg go ms ms', Forall2 pwider ms ms' -> only_adds (pb_text pkg go ms) (pb_text pkg go ms').
Proof.
  intros pkg go ms ms' S. apply lines_adds.
  set (imps := fun ms => ss_slice (fold_left (fun acc m => ss_add_all acc (pm_imports m)) ms (ss_new []))).
  set (opt := fun x : string => pb_nl ++ "option " ++ x ++ ";").
  set (imp := fun x : string => pb_nl ++ "import """ ++ x ++ """;").
  set (msg := fun m => (nl ++ "message " ++ pm_name m ++ " {") ++ String.concat "" (map (fun x => nl ++ x) (pb_lines m)) ++ nl ++ "}").
  assert (E : forall ms, pb_text pkg go ms =
    ("syntax = ""proto3"";" ++ pb_nl ++ pb_nl ++ (if String.eqb pkg "" then "" else "package " ++ pkg ++ ";")) ++ nl ++
    (String.concat "" (map (fun x => opt x ++ nl) (if String.eqb go "" then [] else ["go_package = """ ++ go ++ """"])) ++
    (String.concat "" (map (fun x => imp x ++ nl) (imps ms)) ++
    (String.concat "" (map (fun x => msg x ++ nl) ms) ++ "")))).
  { intros l. unfold pb_text. cbv zeta. rewrite app_nil_r_s, !app_assoc_s.
    assert (O : forall x, opt x ++ nl = pb_nl ++ "option " ++ x ++ ";" ++ pb_nl) by (intros x; unfold opt; rewrite !app_assoc_s; reflexivity).
    assert (I : forall x, imp x ++ nl = pb_nl ++ "import """ ++ x ++ """;" ++ pb_nl) by (intros x; unfold imp; rewrite !app_assoc_s; reflexivity).
    assert (M : forall m, msg m ++ nl = pb_message_text m).
    { intros m. unfold msg, pb_message_text, pb_lines. rewrite map_app, concat_two, !map_map, !app_assoc_s. reflexivity. }
    rewrite (map_ext _ _ O), (map_ext _ _ I), (map_ext _ _ M). reflexivity. }
  rewrite !E, !lines_nl, !lines_pieces. repeat (apply sub_app; [apply sub_refl|]).
  apply sub_app.
  - apply sub_flat. apply slice_sub; try (apply fold_imports_nodup; constructor).
    intros x I. apply fold_imports_in in I as [[]|[m [I J]]]. apply fold_imports_in. right.
    clear -S I J. induction S as [|h h' ms ms' X S IH]; [destruct I|]. destruct I as [<-|I].
    + exists h'. split; [now left|]. destruct X as [_ [_ [_ X]]]. now apply X.
    + destruct (IH I) as [n [A B]]. exists n. split; [now right|exact B].
  - apply sub_app; [|apply sub_refl]. eapply sub_flats; [|exact S]. intros m m' [N [F [R _]]]. unfold msg. rewrite !lines_more, N.
    apply sub_app; [apply sub_refl|]. apply sub_app; [|apply sub_refl]. apply sub_flat. unfold pb_lines. apply sub_app; now apply sub_map.
Qed.
Lemma protobuf_widens : forall camel lc o g s s' text', po_filter o = get_table_filter g -> widened s s' ->
  Forall2 appended (s_tables s) (s_tables s') -> Forall2 (numbers_stay (po_start o) (po_decr o)) (s_tables s) (s_tables s') ->
  pb_generate camel lc o s' = Ok text' -> exists text, pb_generate camel lc o s = Ok text /\ only_adds text text'.
Proof.
  intros camel lc o g s s' text' Fo W A N H. unfold pb_generate, pb_messages in *. rewrite Fo in *.
  pose proof W as [_ [_ [_ F]]]. pose proof (Forall2_both _ _ _ _ F (Forall2_both _ _ _ _ A N)) as G.
  apply (filter_both _ (passes (get_table_filter g))) in G; [|intros x y [[_ [E _]] _]; now apply passes_group].
  destruct (res_map (pb_new_message camel lc o s') (filter (passes (get_table_filter g)) (s_tables s'))) as [ms'|] eqn:E; [|discriminate].
  destruct (messages_wider camel lc o s s' W _ _ G ms' E) as [ms [-> P]]. eexists. split; [reflexivity|]. injection H as <-. now apply pb_text_widens.
Qed.
