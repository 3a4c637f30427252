(** Adding columns to the tables of a schema: Kotlin classes (C141) *)
From Coq Require Import String Ascii List NArith Bool Lia.
From Verif.Model Require Import GoString Util Octopus Common Jpa.
From Verif.Spec Require Import Text Reading LocalSpec WidenSpec WidenSources WidenKotlin.
From Verif.Proofs Require Import StringLemmas ListLemmas UtilProofs LocalProofs WidenProofs.
Import ListNotations.
Local Open Scope string_scope.

(** ** Imports *)

Definition kt_adds (f : kt_field) : list string :=
  (filter (fun i => negb (has_prefix "java." i)) (kf_imports f)
   ++ (if is_audit_field "createdAt" f then ["org.hibernate.annotations.CreationTimestamp"] else [])
   ++ (if is_audit_field "updatedAt" f then ["org.hibernate.annotations.UpdateTimestamp"] else []))%list.
Definition java_adds (f : kt_field) : list string := filter (has_prefix "java.") (kf_imports f).

Lemma add_all_app : forall a b s, ss_add_all s (a ++ b)%list = ss_add_all (ss_add_all s a) b.
Proof. intros a b s. unfold ss_add_all. apply fold_left_app. Qed.
Lemma kt_imports_is : forall k, kt_imports k = ss_add_all (ss_new []) (flat_map kt_adds (kc_fields k)).
Proof.
  intros k. unfold kt_imports. generalize (ss_new []) as s. generalize (kc_fields k) as fs.
  induction fs as [|f fs IH]; intros s; [reflexivity|]. cbn [fold_left flat_map]. rewrite IH, add_all_app. f_equal.
  unfold kt_adds. rewrite !add_all_app. destruct (is_audit_field "createdAt" f), (is_audit_field "updatedAt" f); reflexivity.
Qed.
Lemma java_imports_is : forall k, java_imports k =
  ss_add_all (ss_add_all (ss_new []) ("javax.persistence.*" :: if composite k then ["java.io.Serializable"] else [])) (flat_map java_adds (kc_fields k)).
Proof.
  intros k. unfold java_imports. cbv zeta.
  replace (ss_add_all (ss_new []) ("javax.persistence.*" :: if composite k then ["java.io.Serializable"] else []))
    with (if composite k then ss_add (ss_add (ss_new []) "javax.persistence.*") "java.io.Serializable" else ss_add (ss_new []) "javax.persistence.*")
    by (destruct (composite k); reflexivity).
  generalize (if composite k then ss_add (ss_add (ss_new []) "javax.persistence.*") "java.io.Serializable" else ss_add (ss_new []) "javax.persistence.*") as s.
  generalize (kc_fields k) as fs. induction fs as [|f fs IH]; intros s; [reflexivity|]. cbn [fold_left flat_map]. rewrite IH, add_all_app. reflexivity.
Qed.
Lemma new_nodup : NoDup (ss_new []).
Proof. constructor. Qed.
Lemma slices_add : forall s l l', NoDup s -> sub l l' -> sub (ss_slice (ss_add_all s l)) (ss_slice (ss_add_all s l')).
Proof.
  intros s l l' D S. apply slice_sub; [now apply add_all_nodup..|]. intros x I. rewrite GormProofs.add_all_in in *.
  destruct I as [I|I]; [now left|right; now apply (sub_in l)].
Qed.

(** ** Classes *)

Section Kotlin.
Variables camel lc snake : string -> string.
Variable path_join : list string -> string.
Variable o : kt_opt.
Let field := new_kt_field lc snake.
Let class := new_kt_class camel lc snake o.

Lemma field_col : forall c, kf_col (field c) = c.
Proof. intros c. unfold field, new_kt_field. now destruct (kt_type_of (c_type c)) as [[? ?] ?]. Qed.
Lemma filter_fields : forall (p : column -> bool) cs, filter (fun f => p (kf_col f)) (map field cs) = map field (filter p cs).
Proof.
  intros p cs. induction cs as [|c cs IH]; [reflexivity|]. cbn [map filter]. rewrite field_col, IH. now destruct (p c).
Qed.
Lemma class_name_kept : forall t t', widened_table t t' -> kt_class_name camel o t' = kt_class_name camel o t.
Proof. intros t t' [N [G [C _]]]. unfold kt_class_name. now rewrite N, G, C. Qed.

Section Fields.
Variables ks ks' : list kt_class.
Hypothesis K : forall n, class_of_table ks' n = class_of_table ks n.
Lemma annos_kept : forall f, field_annos lc o ks' f = field_annos lc o ks f.
Proof.
  intros f. unfold field_annos, relation_annos. destruct (String.eqb (ko_relation o) "VRelation"); [|reflexivity].
  destruct (c_ref (kf_col f)); [|reflexivity]. now rewrite K.
Qed.
Lemma fields_kept : forall b fs, fields_lines lc o ks' b fs = fields_lines lc o ks b fs.
Proof. intros b. induction fs as [|f fs IH]; [reflexivity|]. cbn [fields_lines]. now rewrite annos_kept, IH. Qed.
Lemma fields_sub : forall b c a a', sub a a' -> forall l', fields_lines lc o ks b (map field (a' ++ [c])) = Some l' ->
  exists l, fields_lines lc o ks b (map field (a ++ [c])) = Some l /\ sub l l'.
Proof.
  intros b c a a' S.
  assert (N : forall (x : list column), match map field (x ++ [c]) with [] => true | _ => false end = false) by (now intros []).
  induction S as [|x a a' S IH|x a a' S IH]; intros l' E.
  - exists l'. split; [exact E|apply sub_refl].
  - cbn [app map fields_lines] in *. rewrite N in *. destruct (field_annos lc o ks (field x)) as [an|]; [|discriminate].
    destruct (fields_lines lc o ks b (map field (a' ++ [c]))) as [r'|]; [|discriminate].
    destruct (IH r' eq_refl) as [r [-> Q]]. eexists. split; [reflexivity|]. injection E as <-. apply sub_app; [apply sub_refl|exact Q].
  - cbn [app map fields_lines] in E. destruct (field_annos lc o ks (field x)) as [an|]; [|discriminate].
    destruct (fields_lines lc o ks b (map field (a' ++ [c]))) as [r'|]; [|discriminate].
    destruct (IH r' eq_refl) as [r [-> Q]]. exists r. split; [reflexivity|]. injection E as <-. now apply sub_left.
Qed.
End Fields.

Lemma last_or_none : forall {A} (l : list A), l = [] \/ exists a c, l = (a ++ [c])%list.
Proof. intros A l. destruct l as [|x l] using rev_ind; [now left|right; now exists l, x]. Qed.
Lemma sub_butlast : forall {A} (c : A) a a', sub (a ++ [c]) (a' ++ [c]) -> sub a a'.
Proof.
  intros A c a a' S. destruct (sub_snoc _ _ S a' c eq_refl) as [[b [E Q]]|Q].
  - apply app_inj_tail in E as [-> _]. exact Q.
  - eapply sub_trans; [|exact Q]. clear. induction a as [|x a IH]; [apply sub_none|now constructor].
Qed.

Definition kept (t t' : table) : Prop := widened_table t t' /\ key_kept t t' /\ unique_kept t t' /\ last_kept t t'.

Lemma entity_widens : forall ks ks' t t', (forall n, class_of_table ks' n = class_of_table ks n) -> kept t t' ->
  forall text', entity_text lc o ks' (class t') = Some text' -> exists text, entity_text lc o ks (class t) = Some text /\ only_adds text text'.
Proof.
  intros ks ks' t t' K [W [P [U L]]] text'.
  assert (EP : kc_pk (class t') = kc_pk (class t)).
  { unfold class, new_kt_class. cbn [kc_pk]. fold field. rewrite !filter_fields. f_equal. exact P. }
  assert (EU : kc_unique (class t') = kc_unique (class t)).
  { unfold class, new_kt_class. cbn [kc_unique]. fold field. rewrite !filter_fields. f_equal. exact U. }
  assert (EN : kc_name (class t') = kc_name (class t)) by now apply class_name_kept.
  assert (ET : t_name (kc_table (class t')) = t_name (kc_table (class t))) by apply W.
  assert (EG : t_group (kc_table (class t')) = t_group (kc_table (class t))) by apply W.
  assert (EF : sub (kc_fields (class t)) (kc_fields (class t'))) by (apply sub_map, W).
  assert (EC : composite (class t') = composite (class t)) by (unfold composite; now rewrite EP).
  assert (EI : has_identity o (class t') = has_identity o (class t)) by (unfold has_identity; now rewrite EP).
  assert (EX : id_class_name (class t') = id_class_name (class t)) by (unfold id_class_name; now rewrite EN).
  assert (EL : table_lines o (class t') = table_lines o (class t)) by (unfold table_lines; now rewrite EU, ET).
  assert (EFL : forall b l', fields_lines lc o ks' b (kc_fields (class t')) = Some l' ->
    exists l, fields_lines lc o ks b (kc_fields (class t)) = Some l /\ sub l l').
  { intros b l'. rewrite (fields_kept ks ks' K). unfold class, new_kt_class. cbn [kc_fields]. fold field.
    destruct (last_or_none (t_cols t)) as [E|[a [c E]]].
    - intros _. rewrite E. exists []. split; [reflexivity|apply sub_none].
    - destruct (L a c E) as [a' E']. rewrite E, E'. apply fields_sub. apply (sub_butlast c). rewrite <- E, <- E'. apply W. }
  unfold entity_text. cbv zeta. rewrite EI, EC, EX, EL, EN, EP, EG.
  destruct (fields_lines lc o ks' _ (kc_fields (class t'))) as [l'|] eqn:F; [|discriminate].
  destruct (EFL _ _ F) as [l [-> S]]. intros E.
  assert (I : forall x y : string, Some x = Some y -> y = x) by congruence. rewrite (I _ _ E). clear E I. eexists. split; [reflexivity|].
  apply joined_grows; [discriminate|].
  apply sub_app; [apply sub_refl|]. apply sub_app.
  { apply sub_map. rewrite !kt_imports_is. apply slices_add; [apply new_nodup|now apply sub_flat]. }
  apply sub_app; [apply sub_refl|]. apply sub_app.
  { apply sub_map. rewrite !java_imports_is, EC. apply slices_add; [apply add_all_nodup, new_nodup|now apply sub_flat]. }
  do 5 (apply sub_app; [apply sub_refl|]). apply sub_app; [exact S|apply sub_refl].
Qed.

Lemma repository_kept : forall t t', kept t t' -> repository_text o (class t') = repository_text o (class t).
Proof.
  intros t t' [W [P _]].
  assert (EP : kc_pk (class t') = kc_pk (class t)).
  { unfold class, new_kt_class. cbn [kc_pk]. fold field. rewrite !filter_fields. f_equal. exact P. }
  assert (EN : kc_name (class t') = kc_name (class t)) by now apply class_name_kept.
  unfold repository_text, composite, id_class_name. now rewrite EP, EN.
Qed.

Lemma entities_widen : forall all all' dir ts ts', (forall n, class_of_table all' n = class_of_table all n) -> Forall2 kept ts ts' ->
  forall l', kt_entities lc path_join o all' dir (map class ts') = (l', KtDone) ->
  exists l, kt_entities lc path_join o all dir (map class ts) = (l, KtDone) /\ files_add l l'.
Proof.
  intros all all' dir ts ts' K F. induction F as [|t t' ts ts' Q F IH]; intros l' E; cbn [map kt_entities] in *.
  - exists []. injection E as <-. split; [reflexivity|constructor].
  - destruct (entity_text lc o all' (class t')) as [x'|] eqn:X; [|discriminate].
    destruct (entity_widens all all' t t' K Q x' X) as [x [-> S]].
    destruct (kt_entities lc path_join o all' dir (map class ts')) as [q' e'].
    assert (e' = KtDone) by congruence. subst e'. destruct (IH q' eq_refl) as [q [-> R]].
    assert (EN : kc_name (class t') = kc_name (class t)) by (apply class_name_kept, Q). rewrite EN in E.
    eexists. split; [reflexivity|]. injection E as <-. constructor; [|exact R]. split; [reflexivity|exact S].
Qed.
Lemma repositories_widen : forall dir ts ts', Forall2 kept ts ts' ->
  kt_repositories path_join o dir (map class ts') = kt_repositories path_join o dir (map class ts).
Proof.
  intros dir ts ts' F. induction F as [|t t' ts ts' Q F IH]; [reflexivity|]. cbn [map kt_repositories].
  assert (EN : kc_name (class t') = kc_name (class t)) by (apply class_name_kept, Q).
  now rewrite (repository_kept t t' Q), EN, IH.
Qed.
Lemma classes_found : forall ts ts' n, Forall2 kept ts ts' -> class_of_table (map class ts') n = class_of_table (map class ts) n.
Proof.
  intros ts ts' n F. induction F as [|t t' ts ts' Q F IH]; [reflexivity|]. cbn [map class_of_table]. rewrite IH.
  assert (EN : kc_name (class t') = kc_name (class t)) by (apply class_name_kept, Q).
  assert (ET : t_name (kc_table (class t')) = t_name (kc_table (class t))) by apply Q. now rewrite EN, ET.
Qed.
Lemma adds_refl : forall l, files_add l l.
Proof. induction l as [|f l IH]; constructor; [|exact IH]. split; [reflexivity|apply sub_refl]. Qed.

Lemma kotlin_widens : forall g s s' output files', ko_filter o = get_table_filter g -> widened s s' ->
  Forall2 key_kept (s_tables s) (s_tables s') -> Forall2 unique_kept (s_tables s) (s_tables s') -> Forall2 last_kept (s_tables s) (s_tables s') ->
  kt_generate camel lc snake path_join o s' output = (files', KtDone) ->
  exists files, kt_generate camel lc snake path_join o s output = (files, KtDone) /\ files_add files files'.
Proof.
  intros g s s' output files' G [_ [_ [_ W]]] P U L.
  assert (Q : Forall2 kept (filter (passes (ko_filter o)) (s_tables s)) (filter (passes (ko_filter o)) (s_tables s'))).
  { apply filter_both.
    - intros t t' [V _]. rewrite G. now apply passes_group, V.
    - apply (Forall2_both widened_table (fun t t' => key_kept t t' /\ unique_kept t t' /\ last_kept t t')); [exact W|].
      apply (Forall2_both key_kept (fun t t' => unique_kept t t' /\ last_kept t t')); [exact P|]. now apply Forall2_both. }
  unfold kt_generate, kt_classes. cbv zeta. fold class.
  set (ts := filter (passes (ko_filter o)) (s_tables s)) in *. set (ts' := filter (passes (ko_filter o)) (s_tables s')) in *.
  destruct (kt_entities lc path_join o (map class ts') (package_dir path_join output (ko_package o)) (map class ts')) as [e' x'] eqn:E.
  destruct x'; try discriminate. destruct (entities_widen _ _ _ _ _ (fun n => classes_found ts ts' n Q) Q e' E) as [e [-> A]].
  destruct (String.eqb (ko_repos o) ""); intros H; [eexists; split; [reflexivity|]; injection H as <-; exact A|].
  rewrite (repositories_widen _ ts ts' Q) in H.
  destruct (kt_repositories path_join o (package_dir path_join output (ko_repos o)) (map class ts)) as [r y].
  assert (y = KtDone) by congruence. subst y. eexists. split; [reflexivity|]. injection H as <-. apply Forall2_app; [exact A|apply adds_refl].
Qed.
End Kotlin.
