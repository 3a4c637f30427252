(** Loading a file that was saved *)
From Coq Require Import String Ascii List NArith Bool Lia Sorting.Permutation Sorting.Sorted.
From Verif.Model Require Import GoString Util Octopus Common Json JsonText Cli.
From Verif.Spec Require Import Text OctopusSpec JsonSpec CommonSpec CliSpec.
From Verif.Proofs Require Import StringLemmas OctopusProofs CommonProofs JsonProofs JsonTextProofs.
Import ListNotations.
Local Open Scope string_scope.

Lemma accepts_octopus : forall f, octopus_name f -> load_schema_accepts f = true.
Proof. intros f H. apply load_schema_accepts_iff. exact H. Qed.

Lemma normalize_repaired : forall sortf s s', sorts_tables sortf -> normalize sortf s = (s', None) -> schema_repaired s s'.
Proof.
  intros sortf s s' Hs H. destruct (normalize_ok _ _ _ Hs H) as (A & B & C & D & E & F).
  unfold schema_repaired. auto 10.
Qed.

(** ** Documents without null elements *)

Lemma map_member_id : forall n f j, (forall l k v, j = JObj l -> In (k, v) l -> key_is n k = true -> f v = v) ->
  map_member n f j = j.
Proof.
  intros n f j H. destruct j as [| | | | |l]; try reflexivity. cbn [map_member]. f_equal. specialize (H l).
  induction l as [|[k v] l IH]; [reflexivity|]. cbn [map]. f_equal.
  - destruct (key_is n k) eqn:K; [|reflexivity]. now rewrite (H k v eq_refl (or_introl eq_refl) K).
  - apply IH. intros k' v' _ I. exact (H k' v' eq_refl (or_intror I)).
Qed.
Lemma last_member_false : forall n p j, (forall l k v, j = JObj l -> In (k, v) l -> key_is n k = true -> p v = false) ->
  last_member n p j = false.
Proof.
  intros n p j H. destruct j as [| | | | |l]; try reflexivity. unfold last_member. specialize (H l).
  assert (G : forall b, b = false -> fold_left (fun (b : bool) (kv : string * json) => let '(k, v) := kv in if key_is n k then p v else b) l b = false).
  { induction l as [|[k v] l IH]; intros b B; [exact B|]. cbn [fold_left]. apply IH.
    - intros k' v' _ I. exact (H k' v' eq_refl (or_intror I)).
    - destruct (key_is n k) eqn:K; [|exact B]. exact (H k v eq_refl (or_introl eq_refl) K). }
  now apply G.
Qed.
Lemma drop_nulls_id : forall f j, (forall a x, j = JArr a -> In x a -> x <> JNull /\ f x = x) -> drop_nulls f j = j.
Proof.
  intros f j H. destruct j as [| | | |a|]; try reflexivity. cbn [drop_nulls]. f_equal. specialize (H a).
  induction a as [|x a IH]; [reflexivity|]. destruct (H x eq_refl (or_introl eq_refl)) as [N E].
  assert (Z : is_null x = false) by (destruct x; try reflexivity; now destruct N). cbn [filter]. rewrite Z. cbn [negb map].
  f_equal; [exact E|]. apply IH. intros y _ I. exact (H y eq_refl (or_intror I)).
Qed.
Lemma some_element_false : forall p j, (forall a x, j = JArr a -> In x a -> p x = false) -> some_element p j = false.
Proof.
  intros p j H. destruct j as [| | | |a|]; try reflexivity. unfold some_element. specialize (H a).
  induction a as [|x a IH]; [reflexivity|]. cbn [existsb]. rewrite (H x eq_refl (or_introl eq_refl)).
  apply IH. intros y _ I. exact (H y eq_refl (or_intror I)).
Qed.

Definition full_list (j : json) : Prop := forall a, j = JArr a -> ~ In JNull a.
Definition full_table (t : json) : Prop :=
  t <> JNull /\ forall l k v, t = JObj l -> In (k, v) l -> key_is "columns" k = true \/ key_is "indices" k = true -> full_list v.
Definition full_doc (j : json) : Prop :=
  forall l k v a t, j = JObj l -> In (k, v) l -> key_is "tables" k = true -> v = JArr a -> In t a -> full_table t.
Lemma full_drop : forall v, full_list v -> drop_nulls same v = v.
Proof. intros v F. apply drop_nulls_id. intros a x -> I. split; [|reflexivity]. intros ->. exact (F a eq_refl I). Qed.
Lemma full_no_null : forall v, full_list v -> some_element is_null v = false.
Proof.
  intros v F. apply some_element_false. intros a x -> I. destruct x; try reflexivity. destruct (F a eq_refl I).
Qed.
Lemma full_kept : forall j, full_doc j -> without_nulls j = j /\ has_null_table j = false /\
  has_null_column j = false /\ has_null_index j = false.
Proof.
  intros j F. split; [|split; [|split]].
  - apply map_member_id. intros l k v -> I K. apply drop_nulls_id. intros a t -> A.
    destruct (F l k _ a t eq_refl I K eq_refl A) as [N P]. split; [exact N|].
    rewrite (map_member_id "columns"); [apply map_member_id|]; intros l' k' v' E I' K'; apply full_drop; apply (P l' k' v' E I'); auto.
  - apply last_member_false. intros l k v -> I K. apply some_element_false. intros a t -> A.
    destruct (F l k _ a t eq_refl I K eq_refl A) as [N P]. destruct t; try reflexivity. now destruct N.
  - apply last_member_false. intros l k v -> I K. apply some_element_false. intros a t -> A.
    destruct (F l k _ a t eq_refl I K eq_refl A) as [N P]. apply last_member_false. intros l' k' v' E I' K'.
    apply full_no_null. apply (P l' k' v' E I'); auto.
  - apply last_member_false. intros l k v -> I K. apply some_element_false. intros a t -> A.
    destruct (F l k _ a t eq_refl I K eq_refl A) as [N P]. apply last_member_false. intros l' k' v' E I' K'.
    apply full_no_null. apply (P l' k' v' E I'); auto.
Qed.

Lemma om_str_in : forall n s k v, In (k, v) (om_str n s) -> k = n /\ v = JStr s.
Proof. intros n s k v. unfold om_str. destruct (String.eqb s ""); [intros []|]. intros [E|[]]. split; congruence. Qed.
Lemma om_arr_in : forall n l k v, In (k, v) (om_arr n l) -> k = n /\ v = JArr l.
Proof. intros n l k v. unfold om_arr. destruct l; [intros []|]. intros [E|[]]. split; congruence. Qed.
Lemma objects_full : forall A (f : A -> json) l, (forall x, f x <> JNull) -> full_list (JArr (map f l)).
Proof. intros A f l H a E I. assert (a = map f l) by congruence. subst a. apply in_map_iff in I as (x & X & _). exact (H x X). Qed.
Ltac in_members I :=
  repeat (apply in_app_iff in I as [I|I]);
  first [apply om_str_in in I as [-> ->]|apply om_arr_in in I as [-> ->]].
Lemma enc_full : forall s, full_doc (enc_schema s).
Proof.
  intros s l k v a t E I K V A. assert (L : JObj l = enc_schema s) by congruence. unfold enc_schema in L.
  injection L as ->. in_members I; try discriminate V.
  injection V as <-. apply in_map_iff in A as (x & <- & _). split; [discriminate|].
  intros l2 k2 v2 E2 I2 H. unfold enc_table in E2. injection E2 as <-.
  in_members I2; try (intros a2 V2; discriminate V2); apply objects_full; intros y; discriminate.
Qed.

Lemma load_encoded : forall w fs name text s, load_schema_accepts name = true -> fs name = Some text ->
  read_text text = Some (enc_schema s) -> fits_u16 s ->
  load_file w fs name = Loaded (load_schema_decoded (w_sort w) s).
Proof.
  intros w fs name text s A F R Fit. destruct (full_kept _ (enc_full s)) as (N1 & N2 & N3 & N4).
  unfold load_file. now rewrite A, F, R, N1, from_enc_schema, N2, N3, N4 by assumption.
Qed.

Lemma saved_loads : forall w fs name s text, sorts_tables (w_sort w) -> fits_u16 s -> schema_utf8 s ->
  distinct_table_keys s -> octopus_name name ->
  to_text (w_sort w) s = Some text -> fs name = Some text ->
  exists s', schema_repaired s s' /\ load_file w fs name = Loaded s'.
Proof.
  intros w fs name s text Hs Hf U D O T F. destruct (text_roundtrip _ _ _ Hs Hf T) as (s' & N & R & Fit).
  exists s'. split; [now apply (normalize_repaired (w_sort w))|].
  rewrite clean_schema_utf8 in R by exact (normalized_utf8 _ _ _ Hs N U).
  rewrite (load_encoded w fs name text s' (accepts_octopus _ O) F R Fit).
  unfold load_schema_decoded. destruct (normalize_again _ _ _ _ Hs Hs N) as [_ H]. now rewrite (H D).
Qed.

Lemma valid_normalize : forall sortf s, sorts_tables sortf -> valid_schema s ->
  exists s', normalize sortf s = (s', None) /\ Permutation (s_tables s') (s_tables s) /\
    s_author s' = s_author s /\ s_name s' = s_name s /\ s_version s' = s_version s /\ valid_schema s'.
Proof.
  intros sortf s Hs V. exists (with_tables s (sortf (s_tables s))).
  destruct (Hs (s_tables s)) as [P S].
  assert (V' : valid_schema (with_tables s (sortf (s_tables s)))).
  { intros c C. apply V. unfold columns_of in *. cbn in C. eapply flat_map_perm; eauto. }
  split; [|exact (conj P (conj eq_refl (conj eq_refl (conj eq_refl V'))))].
  unfold normalize. rewrite normalize_tables_fixed; [reflexivity|].
  rewrite Forall_forall. intros t Ht. rewrite Forall_forall. intros c Hc. apply V.
  unfold columns_of. apply in_flat_map. exists t. split; auto. eapply Permutation_in; eauto.
Qed.

Lemma saved_loads_any : forall w fs name s text, sorts_tables (w_sort w) -> fits_u16 s -> octopus_name name ->
  to_text (w_sort w) s = Some text -> fs name = Some text ->
  exists s1 s2 s3, schema_repaired s s1 /\ cleaned_schema s1 s2 /\ load_file w fs name = Loaded s3 /\
    Permutation (s_tables s3) (s_tables s2) /\
    s_author s3 = s_author s2 /\ s_name s3 = s_name s2 /\ s_version s3 = s_version s2 /\ valid_schema s3.
Proof.
  intros w fs name s text Hs Hf O T F. destruct (text_roundtrip _ _ _ Hs Hf T) as (s1 & N & R & Fit).
  pose proof (normalize_repaired _ _ _ Hs N) as Rep.
  assert (V : valid_schema (clean_schema s1)) by (apply clean_valid; apply Rep).
  destruct (valid_normalize _ _ Hs V) as (s3 & N3 & P & A).
  exists s1, (clean_schema s1), s3. split; [exact Rep|]. split; [apply clean_schema_cleaned|].
  split; [|split; [exact P|exact A]].
  rewrite (load_encoded w fs name text _ (accepts_octopus _ O) F R (clean_fits _ Fit)).
  unfold load_schema_decoded. now rewrite N3.
Qed.

(** what is not saved *)
Lemma saved_iff : forall sortf s, sorts_tables sortf ->
  (exists text, to_text sortf s = Some text) <-> forall c, In c (columns_of s) -> repairable c.
Proof.
  intros sortf s Hs. rewrite <- (normalize_error sortf s Hs). unfold to_text, to_json.
  destruct (normalize sortf s) as [s' [e|]]; cbn [snd option_map].
  - split; [intros (t & T); discriminate|discriminate].
  - split; [reflexivity|]. intros _. eexists. reflexivity.
Qed.
