(** The GORM generator: which models are embedded, and dependence on the order of map iteration *)
From Coq Require Import String Ascii List NArith Bool Lia Arith Sorting.Permutation.
From Verif.Model Require Import GoString Util Octopus Common Gorm.
From Verif.Spec Require Import Text DiffSpec Reading OctopusSpec GraphqlSpec ProtobufSpec GormSpec.
From Verif.Proofs Require Import ListLemmas StringLemmas UtilProofs.
Import ListNotations.
Local Open Scope string_scope.

(** ** Sets *)

Lemma add_all_in : forall vs s k, In k (ss_add_all s vs) <-> In k s \/ In k vs.
Proof.
  unfold ss_add_all. induction vs as [|v vs IH]; intros s k; cbn; [tauto|]. rewrite IH, ss_add_in. intuition congruence.
Qed.
Lemma remove_all_in : forall vs s k, In k (ss_remove_all s vs) <-> In k s /\ ~ In k vs.
Proof.
  unfold ss_remove_all. induction vs as [|v vs IH]; intros s k; cbn; [tauto|]. rewrite IH, ss_remove_in. intuition congruence.
Qed.
Lemma contains_all_in : forall s ks, ss_contains_all s ks = true <-> forall k, In k ks -> In k s.
Proof. intros. rewrite ss_contains_all_iff. split; intros H k K; apply ss_contains_iff; auto. Qed.

Lemma forallb_false_in : forall {A} (f : A -> bool) l, forallb f l = false -> exists x, In x l /\ f x = false.
Proof.
  induction l as [|x l IH]; intros H; cbn in H; [discriminate|]. destruct (f x) eqn:E.
  - destruct (IH H) as [y [I J]]. exists y. split; [now right|exact J].
  - exists x. split; [now left|exact E].
Qed.

(** ** Extraction *)

Lemma loop_in : forall l set n cols, In (n, cols) (extract_loop l set) -> In (n, cols) l /\ forall x, In x cols -> In x set.
Proof.
  induction l as [|[n0 c0] l IH]; intros set n cols H; [destruct H|]. cbn [extract_loop] in H.
  destruct (ss_contains_all set c0) eqn:E.
  - destruct H as [Q|H].
    + injection Q as -> ->. split; [now left|]. now apply contains_all_in.
    + destruct (IH _ _ _ H) as [A B]. split; [now right|]. intros x I. apply B, remove_all_in in I. tauto.
  - destruct (IH _ _ _ H) as [A B]. split; [now right|exact B].
Qed.
Lemma loop_nodup : forall l set, NoDup (map fst l) -> NoDup (map fst (extract_loop l set)).
Proof.
  induction l as [|[n0 c0] l IH]; intros set H; [exact H|]. cbn [map fst] in H. inversion H as [|? ? N D]; subst.
  cbn [extract_loop]. destruct (ss_contains_all set c0); [|now apply IH].
  cbn [map fst]. constructor; [|now apply IH]. intros I. apply N.
  apply in_map_iff in I as [[n c] [E I]]. cbn in E. subst n. apply loop_in in I as [I _].
  apply in_map_iff. exists (n0, c). auto.
Qed.
Lemma loop_disjoint : forall l set n cols n' cols' x,
  In (n, cols) (extract_loop l set) -> In (n', cols') (extract_loop l set) -> In x cols -> In x cols' -> n = n'.
Proof.
  induction l as [|[n0 c0] l IH]; intros set n cols n' cols' x H H' X X'; [destruct H|]. cbn [extract_loop] in *.
  destruct (ss_contains_all set c0) eqn:E; [|eapply IH; eauto].
  destruct H as [Q|H], H' as [Q'|H'].
  - congruence.
  - injection Q as -> ->. apply loop_in in H' as [_ B]. apply B, remove_all_in in X'. tauto.
  - injection Q' as -> ->. apply loop_in in H as [_ B]. apply B, remove_all_in in X. tauto.
  - eapply IH; eauto.
Qed.
Lemma loop_complete : forall l set n cols, In (n, cols) l -> ~ In (n, cols) (extract_loop l set) ->
  exists x, In x cols /\ (~ In x set \/ exists n' cols', In (n', cols') (extract_loop l set) /\ In x cols').
Proof.
  induction l as [|[n0 c0] l IH]; intros set n cols I N; [destruct I|]. cbn [extract_loop] in *.
  destruct (ss_contains_all set c0) eqn:E.
  - destruct I as [Q|I]; [exfalso; apply N; now left|].
    destruct (IH (ss_remove_all set c0) n cols I) as [x [X H]]; [intros Q; apply N; now right|].
    exists x. split; [exact X|]. destruct H as [H|[n' [c' [H J]]]].
    + destruct (in_dec string_dec x c0) as [J|J].
      * right. exists n0, c0. split; [now left|exact J].
      * left. intros K. apply H, remove_all_in. tauto.
    + right. exists n', c'. split; [now right|exact J].
  - destruct I as [Q|I].
    + injection Q as -> ->. destruct (forallb (fun k => str_in k set) cols) eqn:F.
      * exfalso. assert (ss_contains_all set cols = true); [|congruence]. apply contains_all_in. intros k K.
        rewrite forallb_forall in F. apply str_in_iff. auto.
      * apply forallb_false_in in F as [x [X F]]. exists x. split; [exact X|]. left. intros K. apply str_in_iff in K. congruence.
    + destruct (IH set n cols I N) as [x H]. now exists x.
Qed.

Lemma nodup_assoc : forall {V} (m : list (string * V)) n a b, NoDup (map fst m) -> In (n, a) m -> In (n, b) m -> a = b.
Proof.
  induction m as [|[k v] m IH]; intros n a b D A B; [destruct A|]. cbn in D. inversion D as [|? ? N D']; subst.
  assert (K : forall w, In (n, w) m -> In n (map fst m)) by (intros w W; apply in_map_iff; now exists (n, w)).
  destruct A as [A|A], B as [B|B].
  - congruence.
  - injection A as -> ->. apply K in B. contradiction.
  - injection B as -> ->. apply K in A. contradiction.
  - eauto.
Qed.

Section Embed.
Variables om on : list (string * list string) -> list (string * list string).
Hypothesis OM : iteration_order om.
Hypothesis ON : iteration_order on.
Variable m : list (string * list string).
Hypothesis ND : NoDup (map fst m).
Variable t : table.
Let names := map c_name (t_cols t).
Let used := extract_models om m names.

Lemma start_set : forall x, In x (ss_add_all (ss_new []) names) <-> In x names.
Proof. intros x. rewrite add_all_in. cbn. tauto. Qed.
Lemma om_nodup : NoDup (map fst (om m)).
Proof. refine (Permutation_NoDup _ ND). apply Permutation_map. symmetry. apply OM. Qed.
Lemma used_in : forall n cols, In (n, cols) used -> In (n, cols) m /\ forall x, In x cols -> In x names.
Proof.
  intros n cols H. apply loop_in in H as [A B]. split.
  - exact (Permutation_in _ (OM m) A).
  - intros x X. now apply start_set, B.
Qed.
Lemma in_names : forall n, In n (models_names on used) <-> exists cols, In (n, cols) used.
Proof.
  intros n. unfold models_names. split.
  - intros I. apply in_map_iff in I as [[n' c] [E I]]. cbn in E. subst n'. exists c. exact (Permutation_in _ (ON used) I).
  - intros [c I]. apply in_map_iff. exists (n, c). split; [reflexivity|]. exact (Permutation_in _ (Permutation_sym (ON used)) I).
Qed.
Lemma used_of_name : forall n cols, In n (models_names on used) -> In (n, cols) m -> In (n, cols) used.
Proof.
  intros n cols I J. apply in_names in I as [c I]. pose proof (proj1 (used_in _ _ I)) as K.
  now rewrite (nodup_assoc m n cols c ND J K).
Qed.
Lemma covered_used : forall x, covered m (models_names on used) x <-> models_contain used x = true.
Proof.
  intros x. unfold models_contain. rewrite existsb_exists. split.
  - intros [n [cols [I [J X]]]]. exists (n, cols). split; [now apply used_of_name|]. now apply str_in_iff.
  - intros [[n cols] [I X]]. apply str_in_iff in X. exists n, cols. split; [apply in_names; now exists cols|].
    split; [now apply used_in|exact X].
Qed.

Lemma embedding_used : embedding m t (models_names on used).
Proof.
  split; [|split; [|split]].
  - unfold models_names. refine (Permutation_NoDup (l := map fst used) _ _).
    + apply Permutation_map. symmetry. apply ON.
    + apply loop_nodup, om_nodup.
  - intros n I. apply in_names in I as [cols I]. exists cols. now apply used_in.
  - intros n n' cols cols' x I I' J J' X X'.
    exact (loop_disjoint _ _ _ _ _ _ _ (used_of_name _ _ I J) (used_of_name _ _ I' J') X X').
  - intros n cols I N. destruct (loop_complete (om m) (ss_add_all (ss_new []) names) n cols) as [x [X H]].
    + exact (Permutation_in _ (Permutation_sym (OM m)) I).
    + intros Q. apply N, in_names. exists cols. exact Q.
    + exists x. split; [exact X|]. destruct H as [H|[n' [c' [H J]]]].
      * left. intros K. apply H. now apply start_set.
      * right. exists n', c'. split; [apply in_names; now exists c'|]. split; [now apply used_in|exact J].
Qed.
End Embed.

Lemma kept_filter : forall {A} (P : A -> Prop) (f : A -> bool) l, (forall x, In x l -> (P x <-> f x = true)) -> kept P l (filter f l).
Proof.
  induction l as [|x l IH]; intros H; cbn [filter]; [constructor|].
  pose proof (H x (or_introl eq_refl)) as K. destruct (f x).
  - apply kept_yes; [now apply K|]. apply IH. intros; apply H; now right.
  - apply kept_no; [rewrite K; discriminate|]. apply IH. intros; apply H; now right.
Qed.

Lemma filter_map_comm : forall {A B} (g : A -> B) (f : B -> bool) l, filter f (map g l) = map g (filter (fun x => f (g x)) l).
Proof. induction l as [|x l IH]; cbn; [reflexivity|]. destruct (f (g x)); cbn; now rewrite IH. Qed.

Section Names.
Variables camel snake : string -> string.
Notation new_field := (new_go_field camel snake).
Notation new_struct := (new_go_struct camel snake).

Lemma col_names : forall cs, map (fun f => c_name (go_col f)) (map new_field cs) = map c_name cs.
Proof. intros. now rewrite map_map. Qed.
Lemma struct_fields : forall om on m s remove pm t, gs_fields (new_struct om on m s remove pm t) =
  map new_field (filter (fun c => negb (models_contain (extract_models om m (map c_name (t_cols t))) (c_name c))) (t_cols t)).
Proof.
  intros. unfold new_go_struct. cbv zeta. cbn [gs_fields]. rewrite col_names. rewrite filter_map_comm. reflexivity.
Qed.
Lemma struct_models : forall om on m s remove pm t, gs_models (new_struct om on m s remove pm t) =
  models_names on (extract_models om m (map c_name (t_cols t))).
Proof. intros. unfold new_go_struct. cbv zeta. cbn [gs_models]. now rewrite col_names. Qed.

Lemma embeds_once : forall om on m s remove pm t, iteration_order om -> iteration_order on -> NoDup (map fst m) ->
  let g := new_struct om on m s remove pm t in
  embedding m t (gs_models g) /\
  kept (fun c => ~ covered m (gs_models g) (c_name c)) (t_cols t) (map go_col (gs_fields g)).
Proof.
  intros om on m s remove pm t OM ON ND g. unfold g. rewrite struct_models, struct_fields. split; [now apply embedding_used|].
  rewrite map_map. cbn [go_col new_go_field]. rewrite map_id. apply kept_filter. intros c _.
  rewrite (covered_used om on OM ON m ND t). rewrite negb_true_iff.
  destruct (models_contain _ _); split; intros; congruence.
Qed.
End Names.

(** ** The registered models *)

Lemma register_keys : forall m n cols, map fst (register_model m n cols) = if str_in n (map fst m) then map fst m else (map fst m ++ [n])%list.
Proof.
  induction m as [|[k v] m IH]; intros n cols; [reflexivity|]. cbn [register_model map fst str_in existsb].
  destruct (String.eqb_spec n k) as [->|N]; [reflexivity|]. cbn [map fst orb]. rewrite IH. unfold str_in. now destruct (existsb (String.eqb n) (map fst m)).
Qed.
Lemma register_nodup : forall m n cols, NoDup (map fst m) -> NoDup (map fst (register_model m n cols)).
Proof.
  intros m n cols H. rewrite register_keys. destruct (str_in n (map fst m)) eqn:E; [exact H|].
  apply NoDup_snoc; [exact H|]. intros I. apply str_in_iff in I. congruence.
Qed.
Lemma register_in : forall m n cols k v, In (k, v) (register_model m n cols) -> (k = n /\ v = cols) \/ In (k, v) m.
Proof.
  induction m as [|[k0 v0] m IH]; intros n cols k v H; cbn [register_model] in H.
  - destruct H as [E|[]]. left. split; congruence.
  - destruct (String.eqb_spec n k0) as [->|N]; destruct H as [E|H].
    + left. split; congruence.
    + right. now right.
    + right. now left.
    + apply IH in H as [H|H]; [now left|right; now right].
Qed.
Lemma parse_name : forall d n cols, parse_embed d = Some (n, cols) -> model_name_ok n.
Proof.
  intros d n cols H. unfold parse_embed in H. destruct (split_once ":" d) as [name [c|]]; [|discriminate].
  destruct (negb (String.eqb name "") && string_forallb is_model_char name && negb (contains_char "010" c)) eqn:E; [|discriminate].
  injection H as <- _. apply andb_true_iff in E as [E _]. apply andb_true_iff in E as [A B]. split.
  - intros ->. discriminate.
  - intros x X. pose proof (forallb_char_in _ _ _ B X) as K. clear - K.
    destruct x as [[] [] [] [] [] [] [] []]; vm_compute in K; try discriminate; vm_compute; auto.
Qed.
Lemma embed_ok : forall m e, models_ok m -> models_ok (embed_models m e).
Proof.
  intros m e [D H]. unfold embed_models. destruct (String.eqb e ""); [now split|].
  destruct (parse_embed e) as [[n cols]|] eqn:P; [|now split]. split; [now apply register_nodup|].
  intros k v I. apply register_in in I as [[-> _]|I]; [now apply (parse_name e n cols)|eauto].
Qed.
Lemma default_ok : models_ok default_models.
Proof.
  split; [repeat constructor; intros []|]. intros n cols [E|[]]. injection E as <- _. split; [discriminate|].
  intros c I. cbn in I. repeat (destruct I as [->|I]; [first [now left|now right]|]). destruct I.
Qed.
Lemma registry_ok : forall embeds, models_ok (fold_left embed_models embeds default_models).
Proof.
  intros embeds. generalize default_ok. generalize default_models. induction embeds as [|e es IH]; intros m H; [exact H|].
  cbn [fold_left]. apply IH. now apply embed_ok.
Qed.

(** ** Order of iteration *)

Lemma loop_none : forall l set, (forall n cols, In (n, cols) l -> exists x, In x cols /\ ~ In x set) -> extract_loop l set = [].
Proof.
  induction l as [|[n c] l IH]; intros set H; [reflexivity|]. cbn [extract_loop].
  destruct (ss_contains_all set c) eqn:E.
  - exfalso. destruct (H n c (or_introl eq_refl)) as [x [X N]]. apply N. apply contains_all_in with (ks := c); assumption.
  - apply IH. intros. eapply H. right. eassumption.
Qed.
Lemma loop_one : forall l set n cols, NoDup (map fst l) -> In (n, cols) l -> (forall x, In x cols -> In x set) ->
  (forall n' cols', In (n', cols') l -> (forall x, In x cols' -> In x set) -> n' = n) ->
  extract_loop l set = [(n, cols)].
Proof.
  induction l as [|[n0 c0] l IH]; intros set n cols D I F U; [destruct I|]. cbn [extract_loop].
  cbn in D. inversion D as [|? ? N D']; subst. destruct (ss_contains_all set c0) eqn:E.
  - assert (Q : n0 = n) by (apply (U n0 c0); [now left|now apply contains_all_in]). subst n0.
    destruct I as [I|I]; [injection I as ->|exfalso; apply N, in_map_iff; now exists (n, cols)].
    f_equal. apply loop_none. intros n' c' J.
    destruct (forallb (fun k => str_in k set) c') eqn:G.
    + exfalso. apply N. assert (Q : n' = n).
      { apply (U n' c'); [now right|]. intros x X. rewrite forallb_forall in G. apply str_in_iff. auto. }
      subst n'. apply in_map_iff. now exists (n, c').
    + apply forallb_false_in in G as [x [X G]]. exists x. split; [exact X|]. intros K. apply remove_all_in in K as [K _].
      apply str_in_iff in K. congruence.
  - apply IH; try assumption.
    + destruct I as [I|I]; [|exact I]. injection I as -> ->. exfalso.
      assert (ss_contains_all set cols = true); [now apply contains_all_in|congruence].
    + intros n' c' J. apply U. now right.
Qed.
Lemma fits_dec : forall t cols, {fits_table t cols} + {~ fits_table t cols}.
Proof.
  intros t cols. destruct (forallb (fun k => str_in k (map c_name (t_cols t))) cols) eqn:E.
  - left. intros x X. rewrite forallb_forall in E. apply str_in_iff. auto.
  - right. apply forallb_false_in in E as [x [X N]]. intros F. apply F, str_in_iff in X. congruence.
Qed.
Lemma some_fits : forall t (m : list (string * list string)),
  (exists n cols, In (n, cols) m /\ fits_table t cols) \/ (forall n cols, In (n, cols) m -> ~ fits_table t cols).
Proof.
  intros t m. induction m as [|[n c] m IH]; [right; intros n cols []|]. destruct (fits_dec t c) as [F|N].
  - left. exists n, c. split; [now left|exact F].
  - destruct IH as [[n' [c' [I F]]]|IH]; [left; exists n', c'; split; [now right|exact F]|].
    right. intros n' c' [E|I]; [injection E as <- <-; exact N|eauto].
Qed.

Lemma extract_unique : forall m t, NoDup (map fst m) -> one_fits m t ->
  exists used, (length used <= 1)%nat /\ forall om, iteration_order om -> extract_models om m (map c_name (t_cols t)) = used.
Proof.
  intros m t D U. destruct (some_fits t m) as [[n [cols [I F]]]|N].
  - exists [(n, cols)]. split; [cbn; lia|]. intros om OM. apply loop_one.
    + now apply om_nodup.
    + exact (Permutation_in _ (Permutation_sym (OM m)) I).
    + intros x X. apply start_set. now apply F.
    + intros n' c' J G. apply (U n' c' n cols); try assumption; [exact (Permutation_in _ (OM m) J)|].
      intros x X. now apply start_set, G.
  - exists []. split; [cbn; lia|]. intros om OM. apply loop_none. intros n c J.
    destruct (forallb (fun k => str_in k (map c_name (t_cols t))) c) eqn:G.
    + exfalso. apply (N n c); [exact (Permutation_in _ (OM m) J)|]. intros x X. rewrite forallb_forall in G. apply str_in_iff. auto.
    + apply forallb_false_in in G as [x [X G]]. exists x. split; [exact X|]. intros K. apply start_set in K.
      apply str_in_iff in K. congruence.
Qed.
Lemma short_order : forall (l : list (string * list string)) on, (length l <= 1)%nat -> iteration_order on -> on l = l.
Proof.
  intros l on L O. pose proof (O l) as P. destruct l as [|x [|y l]]; [|apply Permutation_length_1_inv; now symmetry|cbn in L; lia].
  apply Permutation_nil. now symmetry.
Qed.

Section Order.
Variables camel snake : string -> string.

Lemma struct_same : forall om on om' on' m s remove pm t,
  iteration_order om -> iteration_order on -> iteration_order om' -> iteration_order on' ->
  NoDup (map fst m) -> one_fits m t ->
  new_go_struct camel snake om on m s remove pm t = new_go_struct camel snake om' on' m s remove pm t.
Proof.
  intros om on om' on' m s remove pm t OM ON OM' ON' D U. destruct (extract_unique m t D U) as [used [L E]].
  unfold new_go_struct. cbv zeta. rewrite !col_names. rewrite (E om OM), (E om' OM'). unfold models_names.
  now rewrite (short_order used on L ON), (short_order used on' L ON').
Qed.
Lemma structs_same : forall om on om' on' m s remove pm,
  (forall k, iteration_order (om k)) -> (forall k, iteration_order (on k)) ->
  (forall k, iteration_order (om' k)) -> (forall k, iteration_order (on' k)) -> NoDup (map fst m) ->
  forall ts k, (forall t, In t ts -> one_fits m t) ->
  go_structs_from camel snake k om on m s remove pm ts = go_structs_from camel snake k om' on' m s remove pm ts.
Proof.
  intros om on om' on' m s remove pm OM ON OM' ON' D ts. induction ts as [|t ts IH]; intros k H; [reflexivity|].
  cbn [go_structs_from]. f_equal; [apply struct_same; auto; apply H; now left|]. apply IH. intros; apply H; now right.
Qed.
Lemma order_irrelevant : forall om on om' on' m o s,
  (forall k, iteration_order (om k)) -> (forall k, iteration_order (on k)) ->
  (forall k, iteration_order (om' k)) -> (forall k, iteration_order (on' k)) -> NoDup (map fst m) ->
  (forall t, In t (s_tables s) -> selected (go_filter o) t -> one_fits (embed_models m (go_embed o)) t) ->
  gorm_generate camel snake om on m o s = gorm_generate camel snake om' on' m o s.
Proof.
  intros om on om' on' m o s OM ON OM' ON' D U. unfold gorm_generate, go_structs. cbv zeta.
  assert (D' : NoDup (map fst (embed_models m (go_embed o)))).
  { unfold embed_models. destruct (String.eqb (go_embed o) ""); [exact D|].
    destruct (parse_embed (go_embed o)) as [[n c]|]; [now apply register_nodup|exact D]. }
  rewrite (structs_same om on om' on' _ s _ _ OM ON OM' ON' D'); [reflexivity|].
  intros t I. apply filter_In in I as [I P]. apply U; [exact I|]. unfold selected, passes in *. now destruct (go_filter o).
Qed.
End Order.

(** with the default model only, or with another set of columns for it *)
Lemma single_model : forall n cols t, one_fits [(n, cols)] t.
Proof. intros n cols t a b c d [E|[]] [F|[]] _ _. congruence. Qed.

Lemma default_same : forall camel snake om on om' on' o s,
  (forall k, iteration_order (om k)) -> (forall k, iteration_order (on k)) ->
  (forall k, iteration_order (om' k)) -> (forall k, iteration_order (on' k)) ->
  (go_embed o = "" \/ exists cols, go_embed o = "gorm.Model:" ++ cols) ->
  gorm_generate camel snake om on default_models o s = gorm_generate camel snake om' on' default_models o s.
Proof.
  intros camel snake om on om' on' o s OM ON OM' ON' E. apply order_irrelevant; try assumption.
  - apply default_ok.
  - intros t _ _. destruct E as [->|[cols ->]]; [apply single_model|].
    assert (Q : exists c, embed_models default_models ("gorm.Model:" ++ cols) = [("gorm.Model", c)]).
    { unfold embed_models. change (String.eqb ("gorm.Model:" ++ cols) "") with false. cbn iota. unfold parse_embed.
      assert (P : split_once ":" ("gorm.Model:" ++ cols) = ("gorm.Model", Some cols)) by reflexivity. rewrite P.
      change (negb (String.eqb "gorm.Model" "") && string_forallb is_model_char "gorm.Model") with true. cbn [andb].
      destruct (negb (contains_char "010" cols)); eexists; reflexivity. }
    destruct Q as [c ->]. apply single_model.
Qed.

(** ** The findings *)

Definition gorm_col (n ty : string) (nn : bool) : column := mkCol n ty "" 0 0 nn false false false "" "" [] None.
Definition gorm_audit : schema := mkSchema "" "" ""
  [mkTable "note" (map (fun n => gorm_col n "int64" true) ["id"; "created_at"; "updated_at"; "deleted_at"; "owner"])
     "" "" "Note" []].
Definition plain_opt (embed : string) : gorm_opt := mkGormOpt embed None "model" false (mkPM "" [] false) [] "".

Lemma rev_order : forall {A}, iteration_order (@rev A).
Proof. intros A l. symmetry. apply Permutation_rev. Qed.
Lemma id_order : forall {A}, iteration_order (fun l : list A => l).
Proof. intros A l. reflexivity. Qed.

Lemma order_matters : exists om on om' on' o s,
  (forall k, iteration_order (om k)) /\ (forall k, iteration_order (on k)) /\
  (forall k, iteration_order (om' k)) /\ (forall k, iteration_order (on' k)) /\
  forall camel snake, fst (gorm_generate camel snake om on default_models o s) <> fst (gorm_generate camel snake om' on' default_models o s).
Proof.
  exists (fun _ l => l), (fun _ l => l), (fun _ l => rev l), (fun _ l => l), (plain_opt "Owned:owner"), gorm_audit.
  split; [intros; apply id_order|]. split; [intros; apply id_order|]. split; [intros; apply rev_order|]. split; [intros; apply id_order|].
  intros camel snake. vm_compute. discriminate.
Qed.
Lemma overlap_matters : exists om om' on o s t,
  (forall k, iteration_order (om k)) /\ (forall k, iteration_order (on k)) /\ (forall k, iteration_order (om' k)) /\
  s_tables s = [t] /\
  forall camel snake,
    map gs_models (go_structs camel snake om on (embed_models default_models (go_embed o)) o s) = [["gorm.Model"]] /\
    map gs_models (go_structs camel snake om' on (embed_models default_models (go_embed o)) o s) = [["Base"]].
Proof.
  exists (fun _ l => l), (fun _ l => rev l), (fun _ l => l), (plain_opt "Base:id,owner"), gorm_audit.
  eexists. split; [intros; apply id_order|]. split; [intros; apply id_order|]. split; [intros; apply rev_order|].
  split; [reflexivity|]. intros camel snake. vm_compute. split; reflexivity.
Qed.

Lemma structs_in : forall camel snake om on m s remove pm ts k g, In g (go_structs_from camel snake k om on m s remove pm ts) ->
  exists j t, In t ts /\ g = new_go_struct camel snake (om j) (on j) m s remove pm t.
Proof.
  intros camel snake om on m s remove pm. induction ts as [|t ts IH]; intros k g H; [destruct H|]. cbn [go_structs_from] in H.
  destruct H as [<-|H]; [exists k, t; split; [now left|reflexivity]|].
  destruct (IH _ _ H) as [j [u [I E]]]. exists j, u. split; [now right|exact E].
Qed.

(** the documented way to switch the default model off embeds it everywhere *)
Lemma off_everywhere : forall camel snake om on o s, go_embed o = "gorm.Model:" ->
  (forall k, iteration_order (om k)) -> (forall k, iteration_order (on k)) ->
  forall g, In g (go_structs camel snake om on (embed_models default_models (go_embed o)) o s) ->
  gs_models g = ["gorm.Model"] /\ map go_col (gs_fields g) = t_cols (gs_table g).
Proof.
  intros camel snake om on o s E OM ON g I. rewrite E in I. change (embed_models default_models "gorm.Model:") with [("gorm.Model", @nil string)] in I.
  apply structs_in in I as [j [t [_ ->]]]. rewrite struct_models, struct_fields.
  assert (X : extract_models (om j) [("gorm.Model", [])] (map c_name (t_cols t)) = [("gorm.Model", [])]).
  { unfold extract_models. rewrite (short_order _ (om j)) by (cbn; auto). reflexivity. }
  rewrite X. unfold models_names. rewrite (short_order _ (on j)) by (cbn; auto). split; [reflexivity|].
  rewrite map_map. cbn [go_col new_go_field gs_table]. rewrite map_id. unfold new_go_struct. cbv zeta. cbn [gs_table].
  clear. induction (t_cols t) as [|c cs IH]; [reflexivity|]. cbn [filter]. change (negb (models_contain [("gorm.Model", [])] (c_name c))) with true.
  cbn iota. now rewrite IH.
Qed.

(** ** State that survives a generation *)

Lemma embed_leaks : exists o1 o2 s, o2 = plain_opt "" /\
  forall camel snake om on, (forall k, iteration_order (om k)) -> (forall k, iteration_order (on k)) ->
    let m1 := snd (gorm_generate camel snake om on default_models o1 s) in
    map gs_models (go_structs camel snake om on (embed_models m1 "") o2 s) <>
    map gs_models (go_structs camel snake om on (embed_models default_models "") o2 s).
Proof.
  exists (plain_opt "Owned:owner"), (plain_opt ""), (mkSchema "" "" "" [mkTable "note" [gorm_col "owner" "int64" true] "" "" "Note" []]).
  split; [reflexivity|]. intros camel snake om on OM ON. cbv zeta.
  unfold go_structs. cbn [filter passes go_filter plain_opt s_tables go_structs_from map].
  rewrite !struct_models. cbn [map t_cols c_name gorm_col].
  change (embed_models (snd (gorm_generate camel snake om on default_models (plain_opt "Owned:owner") (mkSchema "" "" "" [mkTable "note" [gorm_col "owner" "int64" true] "" "" "Note" []]))) "")
    with [("gorm.Model", ["id"; "created_at"; "updated_at"; "deleted_at"]); ("Owned", ["owner"])].
  change (embed_models default_models "") with [("gorm.Model", ["id"; "created_at"; "updated_at"; "deleted_at"])].
  set (t := mkTable "note" [gorm_col "owner" "int64" true] "" "" "Note" []).
  assert (D : NoDup (map fst [("gorm.Model", ["id"; "created_at"; "updated_at"; "deleted_at"]); ("Owned", ["owner"])])).
  { repeat constructor; cbn; intuition discriminate. }
  intros E.
  pose proof (embedding_used (om 0) (on 0) (OM 0) (ON 0) _ D t) as [_ [_ [_ C]]].
  injection E as E. cbn [map t_cols c_name gorm_col t] in C. rewrite E in C.
  assert (N : models_names (on 0) (extract_models (om 0) [("gorm.Model", ["id"; "created_at"; "updated_at"; "deleted_at"])] ["owner"]) = []).
  { unfold extract_models. rewrite (short_order _ (om 0)) by (cbn; auto). unfold models_names. cbn [extract_loop].
    change (extract_loop [] _) with (@nil (string * list string)). now rewrite (short_order _ (on 0)) by (cbn; auto). }
  rewrite N in C. destruct (C "Owned" ["owner"]) as [x [X H]]; [now right; left|intros []|].
  destruct X as [<-|[]]. destruct H as [H|[n [c [[] _]]]]. apply H. now left.
Qed.
Lemma no_embed_keeps : forall camel snake om on m o s, parse_embed (go_embed o) = None ->
  snd (gorm_generate camel snake om on m o s) = m.
Proof.
  intros camel snake om on m o s H. unfold gorm_generate. cbv zeta. cbn [snd]. unfold embed_models.
  destruct (String.eqb (go_embed o) ""); [reflexivity|]. now rewrite H.
Qed.
