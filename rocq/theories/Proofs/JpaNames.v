(** Names in the Kotlin files: imports, unique constraints, the id *)
From Coq Require Import String Ascii List NArith Bool Lia Arith.
From Verif.Model Require Import GoString Util Octopus Common Jpa.
From Verif.Spec Require Import Text Reading OctopusSpec GraphqlSpec KotlinSpec.
From Verif.Proofs Require Import StringLemmas UtilProofs ReadingProofs OctopusProofs GraphqlProofs GormProofs GormText SqlalchemyProofs SqlalchemyText KotlinProofs JpaProofs JpaText JpaEntity JpaFile JpaDescribed JpaMain.
From Verif.Spec Require Import KotlinSpec.
Import ListNotations.
Local Open Scope string_scope.

Notation foreign n := (~ In n (map fst kt_homes)).

Lemma forallb_Forall : forall {A} (f : A -> bool) l, forallb f l = true -> Forall (fun x => f x = true) l.
Proof. intros A f l H. apply Forall_forall. now apply forallb_forall. Qed.
Lemma itoa_foreign : forall n, foreign (itoa n).
Proof.
  intros n I. assert (C : forall h, In h (map fst kt_homes) -> exists c, char_in c h /\ is_digit c = false).
  { intros h H. cbn in H. repeat (destruct H as [<-|H]; [eexists; split; [left; reflexivity|reflexivity]|]). destruct H. }
  destruct (C _ I) as [c [J D]]. exact (itoa_no n c D J).
Qed.
Lemma pk_foreign : forall n, foreign (n ++ "PK").
Proof.
  intros n I. assert (C : forall h, In h (map fst kt_homes) -> string_forallb (fun c => negb (Ascii.eqb c "K")) h = true).
  { intros h H. cbn in H. repeat (destruct H as [<-|H]; [reflexivity|]). destruct H. }
  specialize (C _ I). rewrite forallb_app_s in C. apply andb_true_iff in C as [_ C]. discriminate.
Qed.
Lemma flat_map_Forall : forall {A} (P : string -> Prop) (f : A -> list string) l, (forall x, In x l -> Forall P (f x)) -> Forall P (flat_map f l).
Proof. intros A P f l H. apply Forall_forall. intros y I. apply in_flat_map in I as [x [I J]]. specialize (H x I). rewrite Forall_forall in H. now apply H. Qed.

Section Imports.
Variables camel lower_camel snake : string -> string.
Variable o : kt_opt.
Variable ts : list table.
Variable t : table.
Variable ns : list string.
Hypothesis OT : forall c, In c (t_cols t) -> In (c_type c) octopus_types.
Notation class t := (new_kt_class camel lower_camel snake o t).
Notation ks := (ks camel lower_camel snake o ts).
Notation imports := (map (split_on ".") (imports_of_class camel lower_camel snake o t)).
Notation the_file := (the_file camel lower_camel snake o ks t ns).

Definition fine (n : string) : Prop := forall p, In (n, p) kt_homes -> In p imports.
Lemma foreign_fine : forall n, foreign n -> fine n.
Proof. intros n H p I. exfalso. apply H. apply in_map_iff. now exists (n, p). Qed.
Lemma java_in : forall i, In i (java_imports (class t)) -> In (split_on "." i) imports.
Proof. intros i I. apply in_map. unfold imports_of_class. apply in_app_iff. right. now apply slice_in. Qed.
Lemma kt_in : forall i, In i (kt_imports (class t)) -> In (split_on "." i) imports.
Proof. intros i I. apply in_map. unfold imports_of_class. apply in_app_iff. left. now apply slice_in. Qed.
Lemma javax_in : In ["javax"; "persistence"; "*"] imports.
Proof. apply (java_in "javax.persistence.*"). apply java_imports_in; [exact OT|now left]. Qed.
Definition javax_names : list string :=
  ["Entity"; "Table"; "UniqueConstraint"; "IdClass"; "Id"; "GeneratedValue"; "GenerationType"; "Lob"; "Column"].
Lemma javax_fine : forall n, In n javax_names -> fine n.
Proof.
  intros n H p I. assert (C : forallb (fun q => negb (str_in (fst q) javax_names) || (if list_eq_dec String.string_dec (snd q) ["javax"; "persistence"; "*"] then true else false)) kt_homes = true)
    by (vm_compute; reflexivity).
  rewrite forallb_forall in C. specialize (C _ I). cbn [fst snd] in C. rewrite (proj2 (str_in_iff n javax_names) H) in C. cbn [negb orb] in C.
  destruct (list_eq_dec String.string_dec p ["javax"; "persistence"; "*"]) as [->|]; [exact javax_in|discriminate].
Qed.
(** every kind of type has its home *)
Lemma kind_home : forall k p, In k kinds -> In (k, p) kt_homes -> home k = p /\ home k <> [] /\ split_on "." (join "." (home k)) = p.
Proof.
  intros k p K I.
  assert (C : forallb (fun q => negb (str_in (fst q) kinds) || ((if list_eq_dec String.string_dec (home (fst q)) (snd q) then true else false) &&
     (if list_eq_dec String.string_dec (split_on "." (join "." (home (fst q)))) (snd q) then true else false) && match home (fst q) with [] => false | _ => true end)) kt_homes = true)
    by (vm_compute; reflexivity).
  rewrite forallb_forall in C. specialize (C _ I). cbn [fst snd] in C. rewrite (proj2 (str_in_iff k kinds) K) in C. cbn [negb orb] in C.
  apply andb_true_iff in C as [C C3]. apply andb_true_iff in C as [C1 C2].
  destruct (list_eq_dec String.string_dec (home k) p) as [E|]; [|discriminate].
  destruct (list_eq_dec String.string_dec (split_on "." (join "." (home k))) p) as [E2|]; [|discriminate].
  split; [exact E|]. split; [|exact E2]. intros Z. rewrite Z in C3. discriminate.
Qed.
Lemma kind_fine : forall c, In c (t_cols t) -> fine (kind (c_type c)).
Proof.
  intros c I p H. destruct (kind_home _ p (kind_in (c_type c)) H) as [E [N S]]. rewrite <- S. apply java_in. apply java_imports_in; [exact OT|].
  right. right. exists c. now repeat split.
Qed.
Lemma value_fine : forall c, In c (t_cols t) -> Forall fine (flat_map words_of (kt (value (c_type c)))).
Proof.
  intros c I.
  assert (V : forall w, In w (flat_map words_of (kt (value (c_type c)))) -> foreign w \/ w = kind (c_type c)).
  { unfold value, kind. destruct (default_of (c_type c)) as [[k v]|] eqn:D; [|intros w []].
    unfold default_of in D. destruct (find _ kt_types) as [[l kv]|] eqn:F; [|discriminate]. injection D as ->. apply find_some in F as [F _].
    unfold kt_types in F. cbn [In] in F.
    assert (G : forall k v, forallb (fun w => negb (str_in w (map fst kt_homes)) || String.eqb w k) (flat_map words_of (kt v)) = true ->
      forall w, In w (flat_map words_of (kt v)) -> foreign w \/ w = k).
    { clear. intros k v H w J. rewrite forallb_forall in H. specialize (H w J). apply orb_true_iff in H as [H|H].
      - left. apply negb_true_iff in H. now apply str_in_false.
      - right. now apply String.eqb_eq. }
    repeat (destruct F as [F|F]; [injection F as <- <- <-; apply G; vm_compute; reflexivity|]). destruct F. }
  apply Forall_forall. intros w J. destruct (V w J) as [H| ->]; [now apply foreign_fine|now apply kind_fine].
Qed.
Lemma type_fine : forall c, In c (t_cols t) -> Forall fine (flat_map words_of (type_trees c)).
Proof.
  intros c I. unfold type_trees. cbn [flat_map words_of app]. constructor; [now apply kind_fine|]. destruct (c_notnull c); constructor.
Qed.
Ltac listed := match goal with |- Forall _ ?l => let l' := eval vm_compute in l in change l with l' end.
Ltac not_home := apply foreign_fine; intros NH; cbn in NH; repeat (destruct NH as [NH|NH]; [discriminate|]); destruct NH.
Ltac by_javax := apply javax_fine; cbn; tauto.
Lemma number_fine : forall n, Forall fine (flat_map words_of (number n)).
Proof. intros n. cbn. constructor; [apply foreign_fine, itoa_foreign|constructor]. Qed.
Lemma others_fine : forall c a, In c (t_cols t) -> In a (others lower_camel o ks c) -> Forall fine (anno_uses a).
Proof.
  intros c a I J. unfold others in J. rewrite !in_app_iff, !in_if in J.
  assert (P : forall n, fine n -> Forall fine (anno_uses (mkAnno n []))) by (intros n F; constructor; [exact F|constructor]).
  destruct J as [[_ ->]|[[_ ->]|[[_ ->]|[J|[[N ->]|[N ->]]]]]].
  - apply P. by_javax.
  - listed. constructor; [by_javax|]. constructor; [by_javax|]. constructor; [not_home|constructor].
  - apply P. by_javax.
  - unfold relations in J. destruct (String.eqb (ko_relation o) "VRelation"); [|destruct J]. destruct (c_ref c) as [r|]; [|destruct J].
    destruct J as [<-|[]]. cbn. constructor; [not_home|constructor].
  - apply P. intros p H. assert (E : p = split_on "." (audit_import "CreationTimestamp")).
    { cbn in H. repeat (destruct H as [H|H]; [try discriminate; injection H as <-; reflexivity|]). destruct H. }
    subst p. apply kt_in. apply kt_imports_in; [exact OT|]. exists c. split; [exact I|]. now left.
  - apply P. intros p H. assert (E : p = split_on "." (audit_import "UpdateTimestamp")).
    { cbn in H. repeat (destruct H as [H|H]; [try discriminate; injection H as <-; reflexivity|]). destruct H. }
    subst p. apply kt_in. apply kt_imports_in; [exact OT|]. exists c. split; [exact I|]. now right.
Qed.
Lemma args_fine : forall c x, In x (col_args lower_camel snake c) -> Forall fine (flat_map words_of (snd x)).
Proof.
  intros c x I. unfold col_args in I. rewrite !in_app_iff, !in_if in I.
  destruct I as [[_ ->]|[[_ ->]|[[_ ->]|[I|[_ ->]]]]]; cbn [snd].
  - constructor.
  - listed. constructor; [not_home|constructor].
  - apply number_fine.
  - destruct (is_col_type_decimal (c_type c)); [|destruct I]. rewrite in_app_iff, !in_if in I. destruct I as [[_ ->]|[_ ->]]; apply number_fine.
  - listed. constructor; [not_home|constructor].
Qed.
Lemma param_fine : forall ov c, In c (t_cols t) -> Forall fine (param_uses (the_param lower_camel snake o ks ov c)).
Proof.
  intros ov c I. unfold param_uses, the_param. cbn [kp_annos kp_type kp_default]. apply Forall_app. split; [|apply Forall_app; split].
  - apply flat_map_Forall. intros a J. unfold annos in J. apply in_app_iff in J as [J|J]; [now apply (others_fine c)|].
    unfold columns in J. destruct (col_args lower_camel snake c) as [|x l] eqn:E; [destruct J|]. destruct J as [<-|[]]. unfold anno_uses. cbn [an_name an_args].
    constructor; [by_javax|]. apply flat_map_Forall. intros y Y. rewrite <- E in Y. now apply (args_fine c).
  - now apply type_fine.
  - destruct (c_notnull c); [now apply value_fine|constructor].
Qed.
Lemma id_param_fine : forall c, In c (t_cols t) -> Forall fine (param_uses (id_param lower_camel c)).
Proof.
  intros c I. unfold param_uses, id_param. cbn [kp_annos kp_type kp_default flat_map app]. apply Forall_app. split; [now apply type_fine|].
  destruct (c_notnull c); [now apply value_fine|constructor].
Qed.
Lemma texts_words : forall l, flat_map words_of (joined (map (fun c => text_of (lower_camel (c_name c))) l)) = [].
Proof.
  induction l as [|c l IH]; [reflexivity|]. destruct l as [|d l]; [reflexivity|].
  change (joined (map (fun c => text_of (lower_camel (c_name c))) (c :: d :: l))) with
    (text_of (lower_camel (c_name c)) ++ comma :: joined (map (fun c => text_of (lower_camel (c_name c))) (d :: l)))%list.
  exact IH.
Qed.
Lemma table_fine : Forall fine (anno_uses (the_table lower_camel o t)).
Proof.
  unfold the_table, anno_uses. destruct (filter c_uq (t_cols t)) as [|u us]; cbn [an_name an_args flat_map snd app].
  - constructor; [by_javax|constructor].
  - constructor; [by_javax|]. pose proof (texts_words (u :: us)) as W. revert W. generalize (joined (map (fun c => text_of (lower_camel (c_name c))) (u :: us))).
    intros names W. cbn [flat_map words_of app text_of]. rewrite W. cbn. constructor; [by_javax|]. constructor; [not_home|]. constructor; [not_home|constructor].
Qed.

Theorem imports_enough : (forall n, In n ns -> foreign n) -> foreign (ko_identity o) -> kt_imports_enough the_file.
Proof.
  intros A ID n p U. assert (F : Forall fine (file_uses the_file)); [|rewrite Forall_forall in F; exact (F n U p)].
  unfold file_uses, JpaFile.the_file. cbn [ki_decls]. unfold the_decls. cbn [flat_map]. apply Forall_app. split.
  - cbn [decl_uses]. apply Forall_app. split; [|apply Forall_app; split].
    + apply flat_map_Forall. intros a J. unfold class_annos in J. rewrite !in_app_iff in J. destruct J as [J|[J|J]].
      * unfold plain_annos in J. apply in_map_iff in J as [w [<- J]]. constructor; [apply foreign_fine; now apply A|constructor].
      * cbn [In] in J. destruct J as [<-|[<-|[]]]; [constructor; [by_javax|constructor]|apply table_fine].
      * destruct (compositeb t); [|destruct J]. destruct J as [<-|[]]. cbn. constructor; [by_javax|]. constructor; [apply foreign_fine, pk_foreign|].
        constructor; [not_home|constructor].
    + apply flat_map_Forall. intros q J. apply in_map_iff in J as [c [<- J]]. now apply param_fine.
    + unfold super_of. destruct (identity_of lower_camel o t) as [c|] eqn:E; [|constructor]. rewrite !flat_map_app. cbn [flat_map words_of app].
      constructor; [now apply foreign_fine|]. rewrite app_nil_r. apply type_fine. apply identity_iff in E as [_ [K _]].
      apply (key_col t c). rewrite K. now left.
  - destruct (compositeb t) eqn:E; [|constructor]. cbn [flat_map decl_uses app]. rewrite app_nil_r. apply Forall_app. split.
    + apply flat_map_Forall. intros q J. apply in_map_iff in J as [c [<- J]]. apply id_param_fine. now apply (key_col t c).
    + listed. constructor; [|constructor]. intros q H. assert (Q : q = split_on "." "java.io.Serializable").
      { cbn in H. repeat (destruct H as [H|H]; [try discriminate; injection H as <-; reflexivity|]). destruct H. }
      subst q. apply java_in. apply java_imports_in; [exact OT|]. right. now left.
Qed.
Theorem imports_used : kt_imports_used the_file.
Proof.
  intros p I. unfold JpaFile.the_file in I. cbn [ki_imports] in I. apply in_map_iff in I as [i [<- I]]. unfold imports_of_class in I.
  unfold file_uses, JpaFile.the_file. cbn [ki_decls]. unfold the_decls. cbn [flat_map].
  assert (PAR : forall c w, In c (t_cols t) -> (forall ov, In w (param_uses (the_param lower_camel snake o ks ov c))) ->
    In w (decl_uses (DClass (class_annos camel lower_camel o t ns) (kt_class_name camel o t)
       (map (fun c => the_param lower_camel snake o ks (overrides (ident lower_camel o t) c) c) (t_cols t)) (super_of lower_camel o t)))).
  { intros c w C W. cbn [decl_uses]. apply in_app_iff. right. apply in_app_iff. left. apply in_flat_map. eexists. split; [apply in_map; exact C|]. apply W. }
  assert (OTH : forall c a, In a (others lower_camel o ks c) -> forall ov, In (an_name a) (param_uses (the_param lower_camel snake o ks ov c))).
  { intros c a J ov. unfold param_uses, the_param. cbn [kp_annos]. apply in_app_iff. left. apply in_flat_map. exists a. split; [|now left].
    unfold annos. apply in_app_iff. now left. }
  apply in_app_iff in I as [I|I]; rewrite slice_in in I.
  - apply kt_imports_in in I; [|exact OT]. destruct I as [c [C [[N ->]|[N ->]]]].
    + exists "CreationTimestamp". split; [vm_compute; tauto|]. apply in_app_iff. left. apply (PAR c); [exact C|].
      apply (OTH c (mkAnno "CreationTimestamp" [])). unfold others. rewrite !in_app_iff, !in_if. tauto.
    + exists "UpdateTimestamp". split; [vm_compute; tauto|]. apply in_app_iff. left. apply (PAR c); [exact C|].
      apply (OTH c (mkAnno "UpdateTimestamp" [])). unfold others. rewrite !in_app_iff, !in_if. tauto.
  - apply java_imports_in in I; [|exact OT]. destruct I as [->|[[K ->]|[c [C [N ->]]]]].
    + exists "Entity". split; [vm_compute; tauto|]. apply in_app_iff. left. cbn [decl_uses]. apply in_app_iff. left. apply in_flat_map.
      exists (mkAnno "Entity" []). split; [|now left]. unfold class_annos. apply in_app_iff. right. now left.
    + exists "Serializable". split; [vm_compute; tauto|]. apply in_app_iff. right. rewrite K. cbn [flat_map decl_uses app]. rewrite app_nil_r.
      apply in_app_iff. right. vm_compute. tauto.
    + exists (kind (c_type c)). split.
      * revert N. pose proof (kind_in (c_type c)) as Q. revert Q. generalize (kind (c_type c)). clear. intros k Q N. unfold kinds in Q. cbn [In] in Q.
        repeat (destruct Q as [<-|Q]; [first [now destruct N|vm_compute; tauto]|]). destruct Q.
      * apply in_app_iff. left. apply (PAR c); [exact C|]. intros ov. unfold param_uses, the_param. cbn [kp_type]. apply in_app_iff. right.
        apply in_app_iff. left. unfold type_trees. now left.
Qed.

(** ** Unique constraints *)

Lemma constraint_is : constraint_names (the_table lower_camel o t) = map (fun c => lower_camel (c_name c)) (filter c_uq (t_cols t)).
Proof.
  unfold the_table. destruct (filter c_uq (t_cols t)) as [|u us] eqn:E; [reflexivity|].
  assert (I : items (joined (map (fun c => text_of (lower_camel (c_name c))) (u :: us))) = map (fun c => text_of (lower_camel (c_name c))) (u :: us)).
  { apply items_joined. intros x J. apply in_map_iff in J as [c [<- _]]. now split. }
  revert I. generalize (joined (map (fun c => text_of (lower_camel (c_name c))) (u :: us))). intros names I.
  unfold constraint_names.
  assert (F : forall l : list column, flat_map (fun x : list tree => match x with [Leaf (TText n)] => [n] | _ => [] end)
    (map (fun c => text_of (lower_camel (c_name c))) l) = map (fun c => lower_camel (c_name c)) l).
  { clear. induction l as [|v l IH]; [reflexivity|]. cbn. now f_equal. }
  rewrite <- F, <- I. reflexivity.
Qed.
Lemma plain_constraint : forall w, constraint_names (mkAnno w []) = [].
Proof. reflexivity. Qed.
Theorem constraints_all : (forall c, In c (t_cols t) -> c_uq c = true -> snake (lower_camel (c_name c)) = c_name c) ->
  Forall constraints_known (ki_decls the_file).
Proof.
  intros H. unfold JpaFile.the_file. cbn [ki_decls]. unfold the_decls. constructor; [|destruct (compositeb t); [constructor; [intros a n []|constructor]|constructor]].
  intros a n A N. unfold class_annos in A. rewrite !in_app_iff in A. destruct A as [A|[A|A]].
  - unfold plain_annos in A. apply in_map_iff in A as [w [<- _]]. destruct N.
  - cbn [In] in A. destruct A as [<-|[<-|[]]]; [destruct N|]. rewrite constraint_is in N. apply in_map_iff in N as [c [<- N]].
    apply filter_In in N as [C U]. eexists. split; [apply in_map; exact C|]. right. split; [reflexivity|]. cbn [kp_annos the_param].
    intros attrs v J K. unfold annos in J. apply in_app_iff in J as [J|J].
    + unfold others in J. rewrite !in_app_iff, !in_if in J. unfold relations in J.
      destruct J as [[_ J]|[[_ J]|[[_ J]|[J|[[_ J]|[_ J]]]]]]; try discriminate.
      destruct (String.eqb (ko_relation o) "VRelation"); [|destruct J]. destruct (c_ref c); [|destruct J]. destruct J as [J|[]]. discriminate.
    + unfold columns in J. destruct (col_args lower_camel snake c) as [|x l] eqn:E; [destruct J|]. destruct J as [J|[]]. injection J as <-.
      rewrite <- E in K. apply (attrs_iff lower_camel snake c) in K; [|now apply OT]. inversion K as [Q| | | | |]; subst. apply Q. unfold property. now apply H.
  - destruct (compositeb t); [|destruct A]. destruct A as [<-|[]]. destruct N.
Qed.

(** ** The id *)

Theorem id_all : ko_identity o <> "" -> (forall c, identified lower_camel (ko_identity o) t c -> c_notnull c = true) ->
  ko_identity o <> "Serializable" -> Forall (id_overridden (ko_identity o)) (ki_decls the_file).
Proof.
  intros N H S. unfold JpaFile.the_file. cbn [ki_decls]. unfold the_decls. constructor.
  - unfold super_of. destruct (identity_of lower_camel o t) as [c|] eqn:E; [|exact I]. cbn [app id_overridden]. intros _.
    assert (D := E). apply identity_iff in D. destruct D as [_ [K P]].
    assert (J : In c (keys t)) by (rewrite K; now left). apply key_col in J as [J PK].
    eexists. split; [apply in_map; exact J|]. cbn [kp_name kp_override the_param]. split; [exact P|].
    apply override_iff; [exact J|apply H|]. apply identity_iff in E. split; [exact E|exact PK].
  - destruct (compositeb t); [|constructor]. constructor; [|constructor]. cbn. intros Q. congruence.
Qed.
End Imports.

(** repositories *)
Lemma repo_enough : forall camel o t, identifier (class_named camel (get_prefix (ko_prefix o)) (ko_remove o) t) = true ->
  foreign (class_named camel (get_prefix (ko_prefix o)) (ko_remove o) t) ->
  (forall c, keys t = [c] -> ~ In (c_type c) ["decimal"; "datetime"; "date"; "time"; "blob8"; "blob16"; "blob24"; "blob32"]) -> keys t <> [] ->
  kt_imports_enough (the_repo camel o t).
Proof.
  intros camel o t I N K E n p U H. unfold file_uses, the_repo, repo_decls in U. cbn [ki_decls flat_map decl_uses app] in U.
  cbn [anno_uses an_name an_args flat_map app] in U. rewrite app_nil_r in U.
  assert (R : forall n, n = "Repository" \/ n = "JpaRepository" -> In (n, p) kt_homes -> In p (ki_imports (the_repo camel o t))).
  { intros m M J. cbn [ki_imports the_repo repo_imports]. destruct M as [->| ->]; vm_compute in J;
      repeat (destruct J as [J|J]; [try discriminate; injection J as <-; cbn; tauto|]); destruct J. }
  assert (F : foreign n -> In p (ki_imports (the_repo camel o t))).
  { intros Q. exfalso. apply Q. apply in_map_iff. now exists (n, p). }
  destruct U as [<-|U]; [apply (R "Repository"); [now left|exact H]|]. unfold repo_super in U. rewrite !flat_map_app in U. cbn [flat_map words_of app] in U.
  destruct U as [<-|[<-|U]]; [apply (R "JpaRepository"); [now right|exact H]|now apply F|]. apply in_app_iff in U as [U|[]].
  unfold key_trees in U. destruct (compositeb t) eqn:C.
  - destruct U as [<-|[]]. apply F, pk_foreign.
  - assert (L : ~ length (keys t) > 1) by (intros G; apply compositeb_iff in G; congruence).
    destruct (keys t) as [|c [|d l]]; [congruence| |cbn in L; lia]. specialize (K c eq_refl).
    assert (U2 : n = kind (c_type c)) by (unfold type_trees in U; destruct U as [<-|U]; [reflexivity|]; destruct (c_notnull c); destruct U).
    apply F. intros Q. subst n. unfold kind in Q.
    destruct (default_of (c_type c)) as [[k v]|] eqn:D.
    + unfold default_of in D. destruct (find _ kt_types) as [[l kv]|] eqn:X; [|discriminate]. injection D as ->. apply find_some in X as [X Y].
      cbn [fst] in Y. apply str_in_iff in Y. unfold kt_types in X. cbn [In] in X.
      repeat (destruct X as [X|X]; [injection X as <- <- <-; cbn in Y, Q, K; intuition (discriminate || congruence)|]). destruct X.
    + destruct (str_in (c_type c) blob_types) eqn:B; [apply str_in_iff in B; cbn in B, K; intuition congruence|].
      cbn in Q. intuition discriminate.
Qed.
