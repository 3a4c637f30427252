(** A Kotlin file describes its table *)
From Coq Require Import String Ascii List NArith Bool Lia Arith.
From Verif.Model Require Import GoString Util Octopus Common Jpa.
From Verif.Spec Require Import Text Reading OctopusSpec GraphqlSpec KotlinSpec.
From Verif.Proofs Require Import StringLemmas UtilProofs ReadingProofs OctopusProofs GraphqlProofs GormProofs GormText SqlalchemyProofs SqlalchemyText KotlinProofs JpaProofs JpaText JpaEntity.
From Verif.Spec Require Import KotlinSpec.
Import ListNotations.
Local Open Scope string_scope.

Section File.
Variables camel lower_camel snake : string -> string.
Variable o : kt_opt.
Variable ks : list kt_class.
Notation field := (new_kt_field lower_camel snake).
Notation prop c := (lower_camel (c_name c)).
Notation col_ok := (col_ok lower_camel).
Notation ref_ok := (ref_ok lower_camel o ks).
Notation class t := (new_kt_class camel lower_camel snake o t).
Notation body := (body lower_camel snake o ks).

(** what is known about a table *)
Definition tab_ok (t : table) (ns : list string) : Prop :=
  word (t_name t) /\ identifier (kt_class_name camel o t) = true /\ Forall col_ok (t_cols t) /\ Forall ref_ok (t_cols t) /\
  (length (keys t) > 1 -> forall c, In c (keys t) -> c_notnull c = true) /\
  annotations (get_annotations (ko_anno o) (t_group t)) ns.
Definition opt_ok : Prop :=
  (ko_identity o = "" \/ identifier (ko_identity o) = true) /\ all_chars (fun c => word_char c = true) (ko_suffix o) /\ package_ok (ko_package o).

Definition ident (t : table) : bool := match identity_of lower_camel o t with Some _ => true | None => false end.
Definition class_annos (t : table) (ns : list string) : list anno :=
  (plain_annos ns ++ [mkAnno "Entity" []; the_table lower_camel o t]
   ++ (if compositeb t then the_ids (kt_class_name camel o t) else []))%list.
Definition imports_of_class (t : table) : list string := (ss_slice (kt_imports (class t)) ++ ss_slice (java_imports (class t)))%list.
Definition decls_trees (t : table) (ns : list string) : list tree :=
  (class_trees (class_annos t ns) (kt_class_name camel o t) (body (ident t) (t_cols t)) (super_of lower_camel o t)
   ++ (if compositeb t then class_trees [] (kt_class_name camel o t ++ "PK") (id_trees lower_camel (keys t)) (kt "Serializable") else []))%list.
Definition file_trees (t : table) (ns : list string) : list tree :=
  (Leaf (TWord "package") :: dotted (split_on "." (ko_package o)) ++ flat_map import_trees (imports_of_class t) ++ decls_trees t ns)%list.
Definition the_decls (t : table) (ns : list string) : list decl :=
  DClass (class_annos t ns) (kt_class_name camel o t)
    (map (fun c => the_param lower_camel snake o ks (overrides (ident t) c) c) (t_cols t)) (super_of lower_camel o t)
  :: (if compositeb t then [DClass [] (kt_class_name camel o t ++ "PK") (map (id_param lower_camel) (keys t)) (kt "Serializable")] else []).
Definition the_file (t : table) (ns : list string) : kfile :=
  mkKfile (split_on "." (ko_package o)) (map (split_on ".") (imports_of_class t)) (the_decls t ns).

Lemma forallb_app_s : forall f a b, string_forallb f (a ++ b) = string_forallb f a && string_forallb f b.
Proof. intros f a b. induction a as [|c a IH]; [reflexivity|]. cbn. now rewrite IH, andb_assoc. Qed.
(** a suffix with a capital letter *)
Lemma identifier_more : forall n suf, identifier n = true -> string_forallb word_char suf = true ->
  string_forallb (fun c => negb (is_upper c)) suf = false -> identifier (n ++ suf) = true.
Proof.
  intros [|c n] suf H W U; [discriminate|]. unfold identifier in *. cbn [append]. apply andb_true_iff in H as [H K]. apply andb_true_iff in H as [H1 H2].
  rewrite H1. cbn [andb]. change (String c (n ++ suf)) with (String c n ++ suf). rewrite forallb_app_s, H2, W. cbn [andb].
  apply negb_true_iff, str_in_false. intros I.
  assert (C : forallb (string_forallb (fun c => negb (is_upper c))) kotlin_keywords = true) by reflexivity.
  rewrite forallb_forall in C. specialize (C _ I). rewrite forallb_app_s, U, andb_false_r in C. discriminate.
Qed.

Lemma annos_block : forall l x, block l (flats (flat_map anno_trees x)) -> forall name params super ls,
  block ls (flats (class_trees [] name params super)) -> block (l ++ ls) (flats (class_trees x name params super)).
Proof.
  intros l x B name params super ls C. unfold class_trees in *. cbn [flat_map app] in C. rewrite flats_app. now apply block_app.
Qed.
Lemma ids_block : forall name, identifier name = true ->
  lexes ("@IdClass(" ++ (name ++ "PK") ++ "::class)") (flats (flat_map anno_trees (the_ids name))).
Proof.
  intros name N. change (flats (flat_map anno_trees (the_ids name))) with
    ([TMark "@"; TWord "IdClass"; TMark "("] ++ [TWord (name ++ "PK")] ++ [TMark ":"; TMark ":"; TWord "class"; TMark ")"])%list.
  apply lexes_after; [now apply lexes_given|reflexivity|]. apply lexes_before; [|now apply lexes_given|reflexivity].
  apply lexes_word, identifier_word. now apply identifier_more.
Qed.
Definition id_anno_line (name : string) : string := "@IdClass(" ++ (name ++ "PK") ++ "::class)".
Definition head_line (name : string) : string := "data class " ++ name ++ "(".
Definition close_line (t : table) : string :=
  match identity_of lower_camel o t with
  | Some c => "): " ++ ko_identity o ++ "<" ++ kf_type (field c) ++ ">"
  | None => ")"
  end.
Definition pk_name (name : string) : string := name ++ "PK".
Lemma decl_block : forall t ns, opt_ok -> tab_ok t ns -> forall fields, block fields (flats (body (ident t) (t_cols t))) ->
  block ([concat_all (get_annotations (ko_anno o) (t_group t)); "@Entity"] ++ table_lines o (class t)
        ++ (if compositeb t then [id_anno_line (kt_class_name camel o t)] else [])
        ++ [head_line (kt_class_name camel o t)] ++ fields ++ [close_line t]
        ++ (if compositeb t then [head_line (pk_name (kt_class_name camel o t))] ++ id_lines (map field (keys t)) ++ ["): Serializable"] else [])
        ++ [""])%list (flats (decls_trees t ns)).
Proof.
  intros t ns [OI [OS OP]] [W [N [C [R [K A]]]]] fields F. unfold decls_trees. rewrite flats_app.
  set (name := kt_class_name camel o t) in *.
  assert (X : block [concat_all (get_annotations (ko_anno o) (t_group t))] (flats (flat_map anno_trees (plain_annos ns))))
    by (apply block_one; now apply annotations_lex).
  assert (Y : block (table_lines o (class t)) (flats (anno_trees (the_table lower_camel o t)))).
  { apply table_block; [exact W|exact OS|]. intros c I. rewrite Forall_forall in C. now apply identifier_word, (C c I). }
  assert (Z : block (if compositeb t then [id_anno_line name] else [])
     (if compositeb t then flats (flat_map anno_trees (the_ids name)) else [])).
  { apply block_if. intros _. apply block_one. now apply ids_block. }
  assert (V : block ((head_line name :: fields) ++ [close_line t])%list (flats (class_trees [] name (body (ident t) (t_cols t)) (super_of lower_camel o t)))).
  { unfold close_line. destruct (identity_of lower_camel o t) as [c|] eqn:E.
    - change ("): " ++ ko_identity o ++ "<" ++ kf_type (field c) ++ ">") with (")" ++ (": " ++ ko_identity o ++ "<" ++ kf_type (field c) ++ ">")).
      apply class_block; [exact N|exact F|].
      replace (match super_of lower_camel o t with [] => [] | _ => Leaf (TMark ":") :: super_of lower_camel o t end) with (Leaf (TMark ":") :: super_of lower_camel o t)
        by (unfold super_of; now rewrite E).
      apply super_lexes; [|  |exact E].
      + destruct OI as [OI|OI]; [|exact OI]. unfold identity_of in E. rewrite OI in E. discriminate.
      + unfold identity_of in E. destruct (String.eqb (ko_identity o) ""); [discriminate|]. destruct (keys t) as [|d [|e l]] eqn:KT; try discriminate.
        destruct (String.eqb (prop d) "id"); [|discriminate]. injection E as <-. rewrite Forall_forall in C.
        assert (I : In d (keys t)) by (rewrite KT; now left). unfold keys in I. apply filter_In in I as [I _]. apply (C d I).
    - change ")" with (")" ++ ""). apply class_block; [exact N|exact F|]. unfold super_of. rewrite E. apply lexes_nil. }
  assert (U : block (if compositeb t then [head_line (pk_name name)] ++ id_lines (map field (keys t)) ++ ["): Serializable"] else [])%list
     (flats (if compositeb t then class_trees [] (name ++ "PK") (id_trees lower_camel (keys t)) (kt "Serializable") else []))).
  { destruct (compositeb t) eqn:Q; [|apply block_nil].
    apply (class_block (name ++ "PK") (id_trees lower_camel (keys t)) (kt "Serializable") ": Serializable" (id_lines (map field (keys t)))).
    - now apply identifier_more.
    - unfold compositeb in Q. apply Nat.ltb_lt in Q. apply id_block; [|now apply K].
      rewrite Forall_forall in *. intros c I. apply C. unfold keys in I. apply filter_In in I. apply I.
    - now apply lexes_given. }
  unfold class_trees in V at 1. cbn [flat_map app] in V.
  unfold class_trees at 1. unfold class_annos. fold name. rewrite !flat_map_app, !flats_app, <- !app_assoc.
  cbn [app]. rewrite <- (app_nil_r (flats (if compositeb t then class_trees _ _ _ _ else []))).
  change (concat_all ?a :: "@Entity" :: ?r) with ([concat_all a] ++ ["@Entity"] ++ r)%list.
  apply block_app; [exact X|].
  change (flat_map anno_trees [mkAnno "Entity" []; the_table lower_camel o t]) with
    (anno_trees (mkAnno "Entity" []) ++ anno_trees (the_table lower_camel o t) ++ [])%list.
  rewrite app_nil_r, flats_app, <- !app_assoc. apply block_app; [apply block_one; now apply lexes_given|].
  apply block_app; [exact Y|]. apply block_app; [destruct (compositeb t); exact Z|].
  change (Leaf (TWord "data") :: Leaf (TWord "class") :: Leaf (TWord name) :: Group "(" (body (ident t) (t_cols t)) :: ?m) with
    ([Leaf (TWord "data"); Leaf (TWord "class"); Leaf (TWord name); Group "(" (body (ident t) (t_cols t))] ++ m)%list in V.
  rewrite flats_app in V. rewrite app_assoc.
  match goal with |- block (?h :: fields ++ ?c :: ?x ++ ?e) _ =>
    replace (h :: fields ++ c :: x ++ e)%list with ((h :: fields ++ [c]) ++ x ++ e)%list by (cbn [app]; rewrite <- app_assoc; reflexivity) end.
  apply block_app; [exact V|]. apply block_app; [destruct (compositeb t); exact U|]. apply block_empty, block_nil.
Qed.

Lemma entity_lexes : forall t ns, opt_ok -> tab_ok t ns ->
  exists text, entity_text lower_camel o ks (class t) = Some text /\ lexes text (flats (file_trees t ns)).
Proof.
  intros t ns O T. assert (T0 := T). destruct T0 as [W [N [C [R _]]]].
  assert (OT : forall c, In c (t_cols t) -> In (c_type c) octopus_types) by (intros c I; rewrite Forall_forall in C; apply (C c I)).
  destruct (fields_block lower_camel snake o ks (ident t) (t_cols t) C R) as [fields [F B]].
  assert (D := decl_block t ns O T fields B).
  unfold entity_text. rewrite has_identity_is.
  replace (match match identity_of lower_camel o t with Some c => Some (field c) | None => None end with Some _ => true | None => false end)
    with (ident t) by (unfold ident; now destruct (identity_of lower_camel o t)).
  change (kc_fields (class t)) with (map field (t_cols t)). rewrite F, composite_is, pk_is. cbv zeta.
  eexists. split; [reflexivity|]. apply block_lexes. unfold file_trees.
  change (flats (Leaf (TWord "package") :: ?l)) with ([TWord "package"] ++ flats l)%list. rewrite !flats_app, app_assoc.
  cbn [app]. apply (block_cons ("package " ++ ko_package o) _ (TWord "package" :: flats (dotted (split_on "." (ko_package o))))).
  { change (TWord "package" :: ?l) with ([TWord "package"] ++ l)%list.
    apply lexes_after; [now apply lexes_given|reflexivity|]. apply package_facts, O. }
  apply block_empty. unfold imports_of_class. rewrite flat_map_app, flats_app, <- app_assoc.
  apply block_app; [apply imports_block; intros i I; exact (kt_known camel lower_camel snake o t i OT I)|]. apply block_empty.
  apply block_app; [apply imports_block; intros i I; exact (java_known camel lower_camel snake o t i OT I)|]. apply block_empty.
  replace (match match identity_of lower_camel o t with Some c => Some (field c) | None => None end with
           | Some f => "): " ++ ko_identity o ++ "<" ++ kf_type f ++ ">" | None => ")" end) with (close_line t)
    by (unfold close_line; now destruct (identity_of lower_camel o t)).
  exact D.
Qed.

Lemma class_sound : forall l name params super, forallb sound (flat_map anno_trees l) = true -> forallb sound params = true -> forallb sound super = true ->
  forallb sound (class_trees l name params super) = true.
Proof.
  intros l name params super L P S. unfold class_trees. rewrite !forallb_app, L. cbn [forallb sound andb]. rewrite P. cbn.
  destruct super; [reflexivity|]. exact S.
Qed.
Lemma super_sound : forall t, forallb sound (super_of lower_camel o t) = true.
Proof. intros t. unfold super_of. destruct (identity_of lower_camel o t) as [c|]; [|reflexivity]. unfold type_trees. now destruct (c_notnull c). Qed.
Lemma keys_ok : forall t, Forall col_ok (t_cols t) -> Forall col_ok (keys t).
Proof. intros t C. rewrite Forall_forall in *. intros c I. apply C. unfold keys in I. apply filter_In in I. apply I. Qed.
Lemma file_sound : forall t ns, opt_ok -> tab_ok t ns -> forallb sound (file_trees t ns) = true.
Proof.
  intros t ns O [W [N [C [R [K A]]]]]. unfold file_trees. cbn [forallb sound andb].
  assert (OT : forall c, In c (t_cols t) -> In (c_type c) octopus_types) by (intros c I; rewrite Forall_forall in C; apply (C c I)).
  destruct O as [_ [_ O]]. destruct (package_facts _ O) as [_ [P _]]. rewrite !forallb_app, P. cbn [andb].
  rewrite imports_sound.
  2: { intros i I. unfold imports_of_class in I. apply in_app_iff in I as [I|I];
       [exact (kt_known camel lower_camel snake o t i OT I)|exact (java_known camel lower_camel snake o t i OT I)]. }
  cbn [andb]. unfold decls_trees. rewrite forallb_app, class_sound.
  - destruct (compositeb t); [|reflexivity]. cbn [andb]. apply class_sound; [reflexivity|now apply id_sound, keys_ok|reflexivity].
  - unfold class_annos. rewrite !flat_map_app, !forallb_app, plain_sound. cbn [andb].
    change (flat_map anno_trees [mkAnno "Entity" []; the_table lower_camel o t]) with
      (anno_trees (mkAnno "Entity" []) ++ anno_trees (the_table lower_camel o t) ++ [])%list.
    rewrite !forallb_app, table_sound. cbn [andb]. now destruct (compositeb t).
  - now apply body_sound.
  - apply super_sound.
Qed.

Lemma decls_read : forall t ns n, opt_ok -> tab_ok t ns -> 2 <= n -> read_decls n (decls_trees t ns) = Some (the_decls t ns).
Proof.
  intros t ns n O [W [N [C [R [K A]]]]] L. destruct n as [|[|n]]; [lia|lia|]. clear L. unfold decls_trees, the_decls.
  set (name := kt_class_name camel o t) in *.
  assert (P : read_all read_param (items (body (ident t) (t_cols t))) =
     Some (map (fun c => the_param lower_camel snake o ks (overrides (ident t) c) c) (t_cols t))).
  { rewrite body_items by exact C. clear -C. induction C as [|c cs H C IH]; [reflexivity|]. cbn [map read_all].
    rewrite param_reads by exact H. now rewrite IH. }
  assert (X : forall a, In a (class_annos t ns) -> anno_ok a).
  { intros a I. unfold class_annos in I. fold name in I. rewrite !in_app_iff in I. destruct I as [I|[I|I]].
    - exact (annotations_ok _ _ A a I).
    - cbn [In] in I. destruct I as [<-|[<-|[]]]; [split; [reflexivity|intros x []]|apply table_ok].
    - destruct (compositeb t); [|destruct I]. destruct I as [<-|[]]. split; [reflexivity|]. cbn [an_args]. intros x [<-|[]].
      split; [|split; [reflexivity|discriminate]]. unfold read_arg, arg_trees. cbn [fst snd String.eqb]. cbn iota.
      rewrite name_identifier by now apply identifier_more. reflexivity. }
  set (rest := if compositeb t then class_trees [] (name ++ "PK") (id_trees lower_camel (keys t)) (kt "Serializable") else []).
  assert (B : begins rest = true) by (subst rest; now destruct (compositeb t)).
  assert (D := class_reads (class_annos t ns) name _ _ (super_of lower_camel o t) rest X N P (super_plain lower_camel o t (proj1 O)) B).
  assert (NE : forall A (l : list tree) (x y : A), match (class_trees (class_annos t ns) name (body (ident t) (t_cols t)) (super_of lower_camel o t) ++ rest)%list
     with [] => x | _ => y end = y).
  { intros A' l x y. unfold class_trees. rewrite <- !app_assoc. now destruct (flat_map anno_trees (class_annos t ns)). }
  change (read_decls (S (S n)) ?l) with (match l with [] => Some [] | _ =>
     match read_decl l with Some (d, rest) => match read_decls (S n) rest with Some ds => Some (d :: ds) | None => None end | None => None end end).
  rewrite NE by exact []. rewrite D. subst rest. destruct (compositeb t); [|reflexivity].
  rewrite <- (app_nil_r (class_trees [] _ _ _)).
  assert (D2 := class_reads [] (name ++ "PK") (id_trees lower_camel (keys t)) _ (kt "Serializable") [] ltac:(intros a []) (identifier_more name "PK" N eq_refl eq_refl)
     (id_reads lower_camel (keys t) (keys_ok t C)) eq_refl eq_refl).
  change (read_decls (S n) ?l) with (match l with [] => Some [] | _ =>
     match read_decl l with Some (d, rest) => match read_decls n rest with Some ds => Some (d :: ds) | None => None end | None => None end end).
  rewrite D2. destruct n; reflexivity.
Qed.

Theorem entity_reads : forall t ns, opt_ok -> tab_ok t ns ->
  exists text, entity_text lower_camel o ks (class t) = Some text /\ read_kotlin text = Some (the_file t ns).
Proof.
  intros t ns O T. destruct (entity_lexes t ns O T) as [text [E L]]. exists text. split; [exact E|].
  unfold read_kotlin. rewrite (lexes_trees _ _ L (file_sound t ns O T)). unfold file_trees at 1.
  change (is_word "package" (Leaf (TWord "package"))) with true. cbn iota.
  destruct (package_facts _ (proj2 (proj2 O))) as [_ [_ P]].
  assert (ND : forall l, undotted (flat_map import_trees (imports_of_class t) ++ l) = true \/ imports_of_class t = []).
  { intros l. destruct (imports_of_class t); [now right|now left]. }
  assert (S : no_import (decls_trees t ns) = true /\ undotted (decls_trees t ns) = true /\ 2 <= length (decls_trees t ns)).
  { unfold decls_trees, class_trees, class_annos. destruct ns; repeat split; try reflexivity; rewrite !app_length; cbn; lia. }
  destruct S as [S1 [S2 S3]].
  rewrite P.
  2: { destruct (ND (decls_trees t ns)) as [H|H]; [exact H|]. rewrite H. exact S2. }
  assert (OT : forall c, In c (t_cols t) -> In (c_type c) octopus_types).
  { intros c I. destruct T as [_ [_ [C _]]]. rewrite Forall_forall in C. apply (C c I). }
  rewrite imports_read; [|  |exact S1|].
  - rewrite (decls_read t ns _ O T S3). reflexivity.
  - intros i I. unfold imports_of_class in I. apply in_app_iff in I as [I|I];
      [apply (known_lexes i (kt_known camel lower_camel snake o t i OT I))|apply (known_lexes i (java_known camel lower_camel snake o t i OT I))].
  - rewrite app_length. assert (G : forall l, length l <= length (flat_map import_trees l)).
    { clear. induction l as [|x l IH]; [apply le_n|]. cbn [flat_map]. rewrite app_length. cbn. lia. }
    specialize (G (imports_of_class t)). lia.
Qed.
End File.
