(** The Kotlin classes describe the tables *)
From Coq Require Import String Ascii List NArith Bool Lia Arith.
From Verif.Model Require Import GoString Util Octopus Common Jpa.
From Verif.Spec Require Import Text Reading OctopusSpec GraphqlSpec KotlinSpec.
From Verif.Proofs Require Import StringLemmas UtilProofs ReadingProofs OctopusProofs GraphqlProofs GormProofs GormText SqlalchemyProofs SqlalchemyText KotlinProofs JpaProofs JpaText JpaEntity JpaFile.
From Verif.Spec Require Import KotlinSpec.
Import ListNotations.
Local Open Scope string_scope.

Fixpoint nodupb (l : list string) : bool := match l with [] => true | x :: l' => negb (str_in x l') && nodupb l' end.
Lemma nodupb_ok : forall l, nodupb l = true -> NoDup l.
Proof.
  induction l as [|x l IH]; intros H; [constructor|]. cbn in H. apply andb_true_iff in H as [A B]. apply negb_true_iff, str_in_false in A.
  constructor; [exact A|now apply IH].
Qed.
Lemma clob_is : forall ty, In ty octopus_types -> is_col_type_clob ty = str_in ty ["text8"; "text16"; "text24"; "text32"].
Proof.
  intros ty I. assert (C : forallb (fun ty => Bool.eqb (is_col_type_clob ty) (str_in ty ["text8"; "text16"; "text24"; "text32"])) octopus_types = true)
    by (vm_compute; reflexivity). rewrite forallb_forall in C. now apply eqb_prop, C.
Qed.
Lemma string_is : forall ty, In ty octopus_types -> is_col_type_string ty = str_in ty ["char"; "varchar"; "text8"; "text16"; "text24"; "text32"].
Proof.
  intros ty I. assert (C : forallb (fun ty => Bool.eqb (is_col_type_string ty) (str_in ty ["char"; "varchar"; "text8"; "text16"; "text24"; "text32"])) octopus_types = true)
    by (vm_compute; reflexivity). rewrite forallb_forall in C. now apply eqb_prop, C.
Qed.
Lemma decimal_is : forall ty, In ty octopus_types -> is_col_type_decimal ty = str_in ty ["float"; "double"; "decimal"].
Proof.
  intros ty I. assert (C : forallb (fun ty => Bool.eqb (is_col_type_decimal ty) (str_in ty ["float"; "double"; "decimal"])) octopus_types = true)
    by (vm_compute; reflexivity). rewrite forallb_forall in C. now apply eqb_prop, C.
Qed.
Lemma in_if : forall {A} (b : bool) (x y : A), In y (if b then [x] else []) <-> b = true /\ y = x.
Proof. intros A [] x y; cbn; intuition congruence. Qed.

Section Described.
Variables camel lower_camel snake : string -> string.
Variable o : kt_opt.
Variable ts : list table.
Variable wanted : string -> list string.
Notation field := (new_kt_field lower_camel snake).
Notation prop c := (lower_camel (c_name c)).
Notation class t := (new_kt_class camel lower_camel snake o t).
Notation prefix := (get_prefix (ko_prefix o)).
Definition ks : list kt_class := map (new_kt_class camel lower_camel snake o) ts.
Notation annos := (annos lower_camel snake o ks).
Notation class_named := (class_named camel prefix (ko_remove o)).
Notation column_attr := (column_attr lower_camel snake).
Notation property_anno := (property_anno camel lower_camel prefix (ko_remove o) (ko_relation o) ts).

Lemma class_name_is : forall t, kt_class_name camel o t = class_named t.
Proof. intros t. exact (name_is camel (ko_remove o) (ko_prefix o) t). Qed.

(** ** References *)

Lemma first_of : forall (l : list table) n, In n (map t_name l) -> exists pre t post, l = (pre ++ t :: post)%list /\ t_name t = n /\ ~ In n (map t_name pre).
Proof.
  induction l as [|t l IH]; intros n I; [destruct I|]. destruct (String.string_dec (t_name t) n) as [E|E].
  - exists [], t, l. split; [reflexivity|]. split; [exact E|intros []].
  - destruct I as [I|I]; [contradiction|]. destruct (IH n I) as [pre [u [post [-> [U N]]]]].
    exists (t :: pre), u, post. split; [reflexivity|]. split; [exact U|]. intros [J|J]; [contradiction|exact (N J)].
Qed.
Lemma class_found : forall l n pre t post, l = (pre ++ t :: post)%list -> t_name t = n -> ~ In n (map t_name pre) ->
  class_of_table (map (new_kt_class camel lower_camel snake o) l) n = class_named t.
Proof.
  intros l n pre t post -> T N. induction pre as [|u pre IH].
  - cbn [app map class_of_table]. change (kc_table (class t)) with t. rewrite T, String.eqb_refl. apply class_name_is.
  - cbn [app map class_of_table]. change (kc_table (class u)) with u. destruct (String.eqb_spec (t_name u) n) as [E|E].
    + exfalso. apply N. now left.
    + apply IH. intros J. apply N. now right.
Qed.
Lemma class_missing : forall l n, ~ In n (map t_name l) -> class_of_table (map (new_kt_class camel lower_camel snake o) l) n = "".
Proof.
  induction l as [|t l IH]; intros n N; [reflexivity|]. cbn [map class_of_table]. change (kc_table (class t)) with t.
  destruct (String.eqb_spec (t_name t) n) as [E|E]; [exfalso; apply N; now left|]. apply IH. intros J. apply N. now right.
Qed.

(** ** Annotations *)

Lemma named_iff : forall n c, is_named lower_camel n c = true <-> c_type c = "datetime" /\ prop c = n.
Proof. intros n c. unfold is_named. rewrite andb_true_iff, !String.eqb_eq. reflexivity. Qed.
Lemma attrs_iff : forall c a, In (c_type c) octopus_types -> (In a (col_args lower_camel snake c) <-> column_attr c a).
Proof.
  intros c a I. unfold col_args. rewrite !in_app_iff, !in_if, (string_is _ I), (decimal_is _ I). rewrite negb_true_iff, String.eqb_neq.
  rewrite andb_true_iff, named_iff. split.
  - intros [[A ->]|[[A ->]|[[[A B] ->]|[A|[[A B] ->]]]]].
    + apply attr_name. unfold property. congruence.
    + now apply attr_nullable.
    + apply attr_length; [now apply str_in_iff|]. apply N.ltb_lt in B. lia.
    + destruct (str_in (c_type c) ["float"; "double"; "decimal"]) eqn:D; [|destruct A]. apply str_in_iff in D.
      apply in_app_iff in A. rewrite !in_if, !N.ltb_lt in A. destruct A as [[A ->]|[A ->]]; [apply attr_precision|apply attr_scale]; try exact D; lia.
    + now apply attr_updatable.
  - intros A. destruct A as [A|A|A B|A B|A B|A B].
    + left. split; [unfold property in A; congruence|reflexivity].
    + right. left. now split.
    + right. right. left. split; [|reflexivity]. split; [now apply str_in_iff|]. apply N.ltb_lt. lia.
    + do 3 right. left. apply str_in_iff in A. rewrite A. apply in_app_iff. rewrite !in_if, !N.ltb_lt. left. split; [lia|reflexivity].
    + do 3 right. left. apply str_in_iff in A. rewrite A. apply in_app_iff. rewrite !in_if, !N.ltb_lt. right. split; [lia|reflexivity].
    + do 4 right. now split.
Qed.
Lemma attrs_nodup : forall c, NoDup (map fst (col_args lower_camel snake c)).
Proof.
  intros c. apply nodupb_ok. unfold col_args.
  destruct (negb _), (c_notnull c), (is_col_type_string (c_type c) && N.ltb 0 (c_size c)), (is_col_type_decimal (c_type c)), (is_named lower_camel "createdAt" c),
    (N.ltb 0 (c_size c)), (N.ltb 0 (c_scale c)); reflexivity.
Qed.
Lemma others_nodup : forall c, NoDup (map an_name (others lower_camel o ks c)).
Proof.
  intros c. apply nodupb_ok. unfold others, relations.
  destruct (c_pk c), (c_autoinc c), (is_col_type_clob (c_type c)), (String.eqb (ko_relation o) "VRelation"), (c_ref c),
    (is_named lower_camel "createdAt" c), (is_named lower_camel "updatedAt" c); reflexivity.
Qed.
Definition refs_found (c : column) : Prop := forall r, ko_relation o = "VRelation" -> c_ref c = Some r -> In (ref_table r) (map t_name ts).
Lemma others_iff : forall c a, In (c_type c) octopus_types -> refs_found c -> (In a (others lower_camel o ks c) <-> property_anno c a).
Proof.
  intros c a I R. unfold others. rewrite !in_app_iff, !in_if, (clob_is _ I), str_in_iff, !named_iff.
  assert (REL : In a (relations lower_camel o ks c) <-> exists r t pre post, ko_relation o = "VRelation" /\ c_ref c = Some r /\
    ts = (pre ++ t :: post)%list /\ t_name t = ref_table r /\ ~ In (ref_table r) (map t_name pre) /\
    a = mkAnno "VRelation" [("cls", text_of (class_named t)); ("field", text_of (lower_camel (ref_column r)))]).
  { unfold relations. destruct (String.eqb_spec (ko_relation o) "VRelation") as [E|E].
    - destruct (c_ref c) as [r|] eqn:C; [|split; [intros []|intros [r [t [p [q [_ [Q _]]]]]]; discriminate]].
      destruct (first_of ts (ref_table r) (R r E C)) as [pre [t [post [P [T N]]]]].
      assert (F : class_of_table ks (ref_table r) = class_named t) by (unfold ks; now apply (class_found ts _ pre t post)). split.
      + intros [<-|[]]. exists r, t, pre, post. rewrite F. now repeat split.
      + intros [r' [t' [p' [q' [_ [Q [P' [T' [N' ->]]]]]]]]]. injection Q as <-. left.
        assert (F' : class_of_table ks (ref_table r) = class_named t') by (unfold ks; now apply (class_found ts _ p' t' q')).
        now rewrite F'.
    - split; [intros []|intros [r [t [p [q [Q _]]]]]; contradiction]. }
  rewrite REL. split.
  - intros [[A ->]|[[A ->]|[[A ->]|[[r [t [pre [post [A [B [C [D [E ->]]]]]]]]]|[[[A B] ->]|[[A B] ->]]]]]].
    + now apply anno_id.
    + now apply anno_generated.
    + now apply anno_lob.
    + now apply (anno_relation camel lower_camel prefix (ko_remove o) (ko_relation o) ts c r t pre post).
    + now apply anno_created.
    + now apply anno_updated.
  - intros A. destruct A as [A|A|A|r t pre post A B C D E|A B|A B].
    + now left.
    + right. now left.
    + right. right. now left.
    + do 3 right. left. exists r, t, pre, post. now repeat split.
    + do 4 right. now left.
    + do 5 right. now split.
Qed.
Lemma annos_are : forall c, In (c_type c) octopus_types -> refs_found c ->
  annos_described camel lower_camel snake prefix (ko_remove o) (ko_relation o) ts c (annos c).
Proof.
  intros c I R. exists (others lower_camel o ks c), (columns lower_camel snake c). split; [reflexivity|].
  split; [intros a; now apply others_iff|]. split; [apply others_nodup|]. unfold columns.
  pose proof (fun a => attrs_iff c a I) as A. pose proof (attrs_nodup c) as N. destruct (col_args lower_camel snake c) as [|x l].
  - left. split; [reflexivity|]. intros a B. now apply A in B.
  - right. exists (x :: l). split; [reflexivity|]. split; [discriminate|]. split; [exact N|exact A].
Qed.

(** ** Properties *)

Lemma property_type_is : forall c, kt_property_type c (type_trees c).
Proof. intros c. exists (kind (c_type c)). split; [apply kind_for|reflexivity]. Qed.
Lemma value_is : forall c, (c_notnull c = true -> has_default c) ->
  value_described c (if c_notnull c then Some (kt (value (c_type c))) else None).
Proof.
  intros c H. unfold value_described. destruct (c_notnull c); [right|now left]. split; [reflexivity|].
  destruct (H eq_refl) as [k [v D]]. exists k, v. split; [exact D|]. apply default_iff in D. unfold value. now rewrite D.
Qed.
Lemma identity_iff : forall t c, identity_of lower_camel o t = Some c <-> identified lower_camel (ko_identity o) t c.
Proof.
  intros t c. unfold identity_of, identified, property. destruct (String.eqb_spec (ko_identity o) "") as [E|E].
  - split; [discriminate|intros [N _]; contradiction].
  - split.
    + destruct (keys t) as [|d [|e l]]; try discriminate. destruct (String.eqb_spec (prop d) "id") as [D|D]; [|discriminate].
      intros Q. injection Q as <-. auto.
    + intros [_ [-> D]]. rewrite D, String.eqb_refl. reflexivity.
Qed.
Lemma override_iff : forall t c, In c (t_cols t) -> (identified lower_camel (ko_identity o) t c -> c_notnull c = true) ->
  (overrides (ident lower_camel o t) c = true <-> identified lower_camel (ko_identity o) t c /\ c_pk c = true).
Proof.
  intros t c I N. unfold overrides, ident. rewrite !andb_true_iff. split.
  - destruct (identity_of lower_camel o t) as [d|] eqn:E; [|now intros [[Q _] _]]. intros [[_ P] _]. split; [|exact P].
    apply identity_iff in E. assert (J : In c (keys t)) by (unfold keys; now apply filter_In).
    assert (E2 := E). destruct E2 as [_ [K _]]. rewrite K in J. destruct J as [<-|[]]. exact E.
  - intros [H P]. rewrite (proj2 (identity_iff t c) H). auto.
Qed.

Lemma table_anno_is : forall t, table_anno lower_camel (ko_suffix o) t (the_table lower_camel o t).
Proof.
  intros t. unfold table_anno, the_table. destruct (filter c_uq (t_cols t)) as [|u us]; [now left|]. right. split; [discriminate|].
  eexists. split; [reflexivity|]. unfold property. apply items_joined. intros x J. apply in_map_iff in J as [c [<- _]]. now split.
Qed.
Lemma super_is : forall t, super_described lower_camel (ko_identity o) t (super_of lower_camel o t).
Proof.
  intros t. unfold super_described, super_of. destruct (identity_of lower_camel o t) as [c|] eqn:E.
  - right. exists c, (type_trees c). apply identity_iff in E. split; [exact E|]. split; [apply property_type_is|reflexivity].
  - left. split; [reflexivity|]. intros c H. apply identity_iff in H. congruence.
Qed.
Lemma compositeb_iff : forall t, compositeb t = true <-> length (keys t) > 1.
Proof. intros t. unfold compositeb. rewrite Nat.ltb_lt. lia. Qed.
Lemma key_col : forall t c, In c (keys t) -> In c (t_cols t) /\ c_pk c = true.
Proof. intros t c I. unfold keys in I. now apply filter_In in I. Qed.

Lemma forall2_map : forall {A B} (P : A -> B -> Prop) (f : A -> B) l, (forall x, In x l -> P x (f x)) -> Forall2 P l (map f l).
Proof. intros A B P f l H. induction l as [|x l IH]; [constructor|]. cbn [map]. constructor; [apply H; now left|]. apply IH. intros y I. apply H. now right. Qed.

Lemma entity_is : forall t,
  (forall c, In c (t_cols t) -> In (c_type c) octopus_types /\ refs_found c /\ (c_notnull c = true -> has_default c) /\
     (identified lower_camel (ko_identity o) t c -> c_notnull c = true)) ->
  entity_described camel lower_camel snake prefix wanted (ko_remove o) (ko_identity o) (ko_relation o) (ko_suffix o) ts t
    (the_decls camel lower_camel snake o ks t (wanted (t_group t))).
Proof.
  intros t H. unfold entity_described, the_decls. rewrite class_name_is.
  exists (the_table lower_camel o t), (if compositeb t then the_ids (class_named t) else []),
    (map (fun c => the_param lower_camel snake o ks (overrides (ident lower_camel o t) c) c) (t_cols t)), (super_of lower_camel o t),
    (if compositeb t then [DClass [] (class_named t ++ "PK") (map (id_param lower_camel) (keys t)) (kt "Serializable")] else []).
  split; [unfold class_annos; rewrite class_name_is; reflexivity|]. split; [apply table_anno_is|]. split; [apply super_is|]. split.
  - apply forall2_map. intros c I. destruct (H c I) as [A [B [C D]]]. unfold param_described, the_param. cbn [kp_name kp_type kp_default kp_annos kp_override].
    split; [reflexivity|]. split; [apply property_type_is|]. split; [now apply value_is|]. split; [now apply annos_are|]. now apply override_iff.
  - destruct (compositeb t) eqn:E.
    + right. apply compositeb_iff in E. split; [exact E|]. split; [reflexivity|]. eexists. split; [reflexivity|].
      apply forall2_map. intros c I. apply key_col in I as [I _]. destruct (H c I) as [A [B [C D]]]. unfold id_param_described, id_param.
      cbn [kp_name kp_type kp_default kp_annos kp_override]. split; [reflexivity|]. split; [apply property_type_is|]. split; [now apply value_is|]. now split.
    + left. assert (N : ~ length (keys t) > 1) by (intros G; apply compositeb_iff in G; congruence). split; [lia|]. now split.
Qed.

(** ** Repositories *)

Definition key_trees (t : table) : list tree :=
  if compositeb t then [Leaf (TWord (class_named t ++ "PK"))] else match keys t with c :: _ => type_trees c | [] => [] end.
Definition repo_super (t : table) : list tree :=
  ([Leaf (TWord "JpaRepository"); Leaf (TMark "<"); Leaf (TWord (class_named t)); Leaf (TMark ",")] ++ key_trees t ++ [Leaf (TMark ">")])%list.
Definition repo_imports : list (list string) :=
  [(split_on "." (ko_package o) ++ ["*"])%list; ["org"; "springframework"; "data"; "jpa"; "repository"; "JpaRepository"];
   ["org"; "springframework"; "stereotype"; "Repository"]].
Definition repo_decls (t : table) : list decl := [DInterface [mkAnno "Repository" []] (class_named t ++ "Repository") (repo_super t)].
Definition the_repo (t : table) : kfile := mkKfile (split_on "." (ko_repos o)) repo_imports (repo_decls t).
Definition repo_trees (t : table) : list tree :=
  ((Leaf (TWord "package") :: dotted (split_on "." (ko_repos o)))
   ++ flat_map (fun p => Leaf (TWord "import") :: dotted p) repo_imports
   ++ [Leaf (TMark "@"); Leaf (TWord "Repository"); Leaf (TWord "interface"); Leaf (TWord (class_named t ++ "Repository")); Leaf (TMark ":")]
   ++ repo_super t)%list.

Lemma key_lexes : forall t, identifier (class_named t) = true -> (forall c, In c (t_cols t) -> In (c_type c) octopus_types) -> keys t <> [] ->
  exists id, (if composite (class t) then Some (id_class_name (class t)) else match kc_pk (class t) with [] => None | f :: _ => Some (kf_type f) end) = Some id /\
    lexes id (flats (key_trees t)).
Proof.
  intros t N T K. rewrite composite_is, pk_is. unfold key_trees. destruct (compositeb t).
  - eexists. split; [reflexivity|]. unfold id_class_name. change (kc_name (class t)) with (kt_class_name camel o t). rewrite class_name_is.
    apply (lexes_word (class_named t ++ "PK")). now apply identifier_word, identifier_more.
  - destruct (keys t) as [|c l] eqn:E; [congruence|]. cbn [map]. eexists. split; [reflexivity|]. apply type_lexes. apply T.
    assert (I : In c (keys t)) by (rewrite E; now left). apply key_col in I. apply I.
Qed.
Lemma repo_lexes : forall t, identifier (class_named t) = true -> (forall c, In c (t_cols t) -> In (c_type c) octopus_types) -> keys t <> [] ->
  package_ok (ko_package o) -> package_ok (ko_repos o) ->
  exists text, repository_text o (class t) = Some text /\ lexes text (flats (repo_trees t)).
Proof.
  intros t N T K P Q. destruct (key_lexes t N T K) as [id [E L]]. unfold repository_text. rewrite E. cbv zeta.
  change (kc_name (class t)) with (kt_class_name camel o t). rewrite class_name_is. eexists. split; [reflexivity|].
  apply block_lexes. unfold repo_trees. rewrite !flats_app.
  apply block_cons.
  { change (flats (Leaf (TWord "package") :: ?l)) with ([TWord "package"] ++ flats l)%list.
    apply lexes_after; [now apply lexes_given|reflexivity|]. now apply package_facts. }
  apply block_empty. unfold repo_imports. cbn [flat_map]. rewrite flats_app, <- !app_assoc. apply block_cons.
  { change (flats (Leaf (TWord "import") :: ?l)) with ([TWord "import"] ++ flats l)%list.
    apply lexes_after; [now apply lexes_given|reflexivity|].
    replace (ko_package o ++ ".*") with (join "." (split_on "." (ko_package o) ++ ["*"])).
    - apply lexes_dotted. intros p I. apply in_app_iff in I as [I|[<-|[]]]; [left|now right]. unfold package_ok in P. rewrite Forall_forall in P. now apply P.
    - rewrite <- (join_split (ko_package o)) at 2. destruct (split_some "." (ko_package o)) as [x [xs ->]]. clear. revert x.
      induction xs as [|y xs IH]; intros x; [reflexivity|]. change (join "." ((x :: y :: xs) ++ ["*"])) with (x ++ "." ++ join "." ((y :: xs) ++ ["*"])).
      change (join "." (x :: y :: xs)) with (x ++ "." ++ join "." (y :: xs)). rewrite (IH y), !app_assoc_s. reflexivity. }
  rewrite flats_app, <- !app_assoc. apply block_cons; [now apply lexes_given|]. rewrite app_nil_r. apply block_cons; [now apply lexes_given|]. apply block_empty.
  change (flats [Leaf (TMark "@"); Leaf (TWord "Repository"); Leaf (TWord "interface"); Leaf (TWord (class_named t ++ "Repository")); Leaf (TMark ":")]) with
    ([TMark "@"; TWord "Repository"] ++ ([TWord "interface"] ++ [TWord (class_named t ++ "Repository")] ++ [TMark ":"]))%list.
  rewrite <- (app_assoc [TMark "@"; TWord "Repository"]). apply block_cons; [now apply lexes_given|].
  rewrite <- (app_nil_r (_ ++ flats (repo_super t))%list). apply block_cons; [|apply block_empty, block_nil].
  rewrite <- !app_assoc.
  replace ("interface " ++ class_named t ++ "Repository : JpaRepository<" ++ class_named t ++ ", " ++ id ++ ">")
    with ("interface " ++ (class_named t ++ "Repository") ++ " : " ++ "JpaRepository" ++ "<" ++ class_named t ++ ", " ++ id ++ ">")
    by (rewrite (app_assoc_s (class_named t) "Repository"); reflexivity).
  apply lexes_after; [now apply lexes_given|reflexivity|]. apply lexes_before; [apply lexes_word, identifier_word; now apply identifier_more| |reflexivity].
  apply lexes_after; [now apply lexes_given|reflexivity|].
  unfold repo_super. rewrite !flats_app.
  change (flats [Leaf (TWord "JpaRepository"); Leaf (TMark "<"); Leaf (TWord (class_named t)); Leaf (TMark ",")]) with
    ([TWord "JpaRepository"] ++ [TMark "<"] ++ [TWord (class_named t)] ++ [TMark ","])%list.
  rewrite <- !app_assoc. apply lexes_before; [now apply lexes_given| |reflexivity].
  apply lexes_after; [now apply lexes_given|reflexivity|]. apply lexes_before; [now apply lexes_word, identifier_word| |reflexivity].
  apply lexes_after; [now apply lexes_given|reflexivity|]. apply lexes_before; [exact L|now apply lexes_given|reflexivity].
Qed.
Lemma key_plain : forall t, identifier (class_named t) = true -> plain_super (key_trees t ++ [Leaf (TMark ">")]) = true.
Proof.
  intros t N. unfold key_trees. destruct (compositeb t).
  - cbn [app plain_super is_mark is_word]. assert (I := identifier_more (class_named t) "PK" N eq_refl eq_refl).
    change (String.eqb "data" (class_named t ++ "PK") && String.eqb "class" ">") with (String.eqb "data" (class_named t ++ "PK") && false).
    rewrite (not_keyword _ "interface" I), (not_keyword _ "class" I) by (cbn; tauto). rewrite andb_false_r. reflexivity.
  - destruct (keys t) as [|c l]; [reflexivity|]. now apply type_plain.
Qed.
Lemma repo_plain : forall t, identifier (class_named t) = true -> plain_super (repo_super t) = true.
Proof.
  intros t N. unfold repo_super. pose proof (key_plain t N) as K. revert K. generalize (key_trees t ++ [Leaf (TMark ">")])%list. intros l K.
  change (plain_super ([Leaf (TWord "JpaRepository"); Leaf (TMark "<"); Leaf (TWord (class_named t)); Leaf (TMark ",")] ++ l)) with
    (negb (String.eqb "interface" (class_named t)) && negb (String.eqb "data" (class_named t) && false) && negb (String.eqb "class" (class_named t)) && plain_super l).
  rewrite K, andb_false_r. rewrite (not_keyword _ "interface" N), (not_keyword _ "class" N) by (cbn; tauto). reflexivity.
Qed.
Lemma repo_sound : forall t, package_ok (ko_package o) -> package_ok (ko_repos o) -> forallb sound (repo_trees t) = true.
Proof.
  intros t P Q. unfold repo_trees. rewrite !forallb_app. cbn [forallb sound andb].
  destruct (package_facts _ Q) as [_ [-> _]]. cbn [andb]. unfold repo_imports. cbn [flat_map]. rewrite !forallb_app. cbn [forallb sound andb].
  rewrite dotted_sound.
  - cbn [andb]. unfold repo_super, key_trees. rewrite !forallb_app. destruct (compositeb t); [reflexivity|].
    destruct (keys t) as [|c l]; [reflexivity|]. unfold type_trees. now destruct (c_notnull c).
  - intros p I. apply in_app_iff in I as [I|[<-|[]]]; [left|now right]. unfold package_ok in P. rewrite Forall_forall in P. now apply P.
Qed.
Lemma paths_read : forall ps rest n, (forall p, In p ps -> path_reads p) -> no_import rest = true -> length ps <= n ->
  read_imports n (flat_map (fun p => Leaf (TWord "import") :: dotted p) ps ++ rest) = Some (ps, rest).
Proof.
  induction ps as [|p ps IH]; intros rest n H R N.
  - cbn [flat_map app]. destruct rest as [|t rest]; destruct n; try reflexivity. cbn [no_import] in R. apply andb_true_iff in R as [R _].
    apply negb_true_iff in R. cbn [read_imports]. now rewrite R.
  - destruct n as [|n]; [cbn in N; lia|]. cbn [flat_map]. rewrite <- app_assoc. cbn [app read_imports].
    change (is_word "import" (Leaf (TWord "import"))) with true. cbn match. rewrite (H p (or_introl eq_refl)).
    + rewrite IH; [reflexivity|intros x J; apply H; now right|exact R|cbn in N; lia].
    + destruct ps as [|q ps]; [|reflexivity]. cbn [flat_map app]. destruct rest as [|t rest]; [reflexivity|]. cbn [no_import] in R.
      apply andb_true_iff in R. apply R.
Qed.
Theorem repo_reads : forall t, identifier (class_named t) = true -> (forall c, In c (t_cols t) -> In (c_type c) octopus_types) -> keys t <> [] ->
  package_ok (ko_package o) -> package_ok (ko_repos o) ->
  exists text, repository_text o (class t) = Some text /\ read_kotlin text = Some (the_repo t).
Proof.
  intros t N T K P Q. destruct (repo_lexes t N T K P Q) as [text [E L]]. exists text. split; [exact E|].
  unfold read_kotlin. rewrite (lexes_trees _ _ L (repo_sound t P Q)). unfold repo_trees. rewrite <- app_comm_cons.
  change (is_word "package" (Leaf (TWord "package"))) with true. cbn iota. destruct (package_facts _ Q) as [_ [_ R]].
  assert (G : forall p, In p repo_imports -> path_reads p).
  { intros p I. unfold repo_imports in I. cbn [In] in I. destruct I as [<-|[<-|[<-|[]]]].
    - destruct (split_some "." (ko_package o)) as [x [xs X]]. rewrite X. intros l _. apply read_starred.
      apply forallb_forall. rewrite <- X. unfold package_ok in P. now rewrite Forall_forall in P.
    - exact (read_dotted ["springframework"; "data"; "jpa"; "repository"; "JpaRepository"] "org" eq_refl).
    - exact (read_dotted ["springframework"; "stereotype"; "Repository"] "org" eq_refl). }
  rewrite R by reflexivity. rewrite paths_read; [|exact G|reflexivity|].
  - change (read_decls (length ?l) ?l) with (match read_decl l with Some (d, rest) => match read_decls (length (tl l)) rest with Some ds => Some (d :: ds) | None => None end | None => None end).
    assert (D : read_decl ([Leaf (TMark "@"); Leaf (TWord "Repository"); Leaf (TWord "interface"); Leaf (TWord (class_named t ++ "Repository")); Leaf (TMark ":")] ++ repo_super t)%list =
      Some (DInterface [mkAnno "Repository" []] (class_named t ++ "Repository") (repo_super t), [])).
    { unfold read_decl.
      change ([Leaf (TMark "@"); Leaf (TWord "Repository"); Leaf (TWord "interface"); Leaf (TWord (class_named t ++ "Repository")); Leaf (TMark ":")] ++ repo_super t)%list with
        (flat_map anno_trees [mkAnno "Repository" []] ++ ([Leaf (TWord "interface"); Leaf (TWord (class_named t ++ "Repository")); Leaf (TMark ":")] ++ repo_super t))%list.
      rewrite annos_read; [|intros a [<-|[]]; split; [reflexivity|intros x []]|reflexivity]. cbn [app].
      change (is_word "interface" (Leaf (TWord "interface"))) with true. cbn iota.
      rewrite name_identifier by now apply identifier_more. unfold read_super. change (is_mark ":" (Leaf (TMark ":"))) with true. cbn iota.
      rewrite <- (app_nil_r (repo_super t)) at 1. now rewrite (until_plain (repo_super t) [] (repo_plain t N) eq_refl). }
    rewrite D. cbn [app tl length read_decls]. reflexivity.
  - rewrite app_length. unfold repo_imports. cbn [flat_map]. rewrite !app_length. cbn. lia.
Qed.
Lemma repo_is : forall t, keys t <> [] -> repository_described camel prefix (ko_remove o) (split_on "." (ko_package o)) t (the_repo t).
Proof.
  intros t K. split; [reflexivity|]. exists (key_trees t). split; [reflexivity|]. unfold key_trees. destruct (compositeb t) eqn:E.
  - right. apply compositeb_iff in E. now split.
  - left. assert (N : ~ length (keys t) > 1) by (intros G; apply compositeb_iff in G; congruence).
    destruct (keys t) as [|c [|d l]]; [congruence| |cbn in N; lia]. exists c. split; [reflexivity|]. apply property_type_is.
Qed.
End Described.
