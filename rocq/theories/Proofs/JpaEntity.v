(** The files of a table *)
From Coq Require Import String Ascii List NArith Bool Lia Arith.
From Verif.Model Require Import GoString Util Octopus Common Jpa.
From Verif.Spec Require Import Text Reading OctopusSpec GraphqlSpec KotlinSpec.
From Verif.Proofs Require Import StringLemmas UtilProofs ReadingProofs OctopusProofs GormProofs GormText SqlalchemyProofs KotlinProofs JpaProofs JpaText.
From Verif.Spec Require Import KotlinSpec.
Import ListNotations.
Local Open Scope string_scope.

Lemma split_same : forall c s, split_char c s = split_on c s.
Proof.
  intros c s. induction s as [|d s IH]; [reflexivity|]. cbn [split_char split_on]. rewrite <- IH, (Ascii.eqb_sym c d). now destruct (Ascii.eqb d c).
Qed.
Lemma join_split : forall s, join "." (split_on "." s) = s.
Proof. intros s. rewrite <- split_same. apply split_char_join. Qed.
Lemma split_some : forall c s, exists x xs, split_on c s = x :: xs.
Proof.
  intros c [|d s]; [now exists "", []|]. cbn [split_on]. destruct (Ascii.eqb d c); [now eexists _, _|].
  destruct (split_on c s); now eexists _, _.
Qed.

Lemma word_more : forall a b, word a -> all_chars (fun c => word_char c = true) b -> word (a ++ b).
Proof.
  intros a b [N A] B. split; [destruct a; [congruence|discriminate]|]. intros c I. apply char_in_app in I as [I|I]; [now apply A|now apply B].
Qed.

(** ** Packages *)

Lemma package_facts : forall p, package_ok p -> lexes p (flats (dotted (split_on "." p))) /\
  forallb sound (dotted (split_on "." p)) = true /\ path_reads (split_on "." p).
Proof.
  intros p H. unfold package_ok in H. rewrite Forall_forall in H. split; [|split].
  - rewrite <- (join_split p) at 1. apply lexes_dotted. intros x I. left. now apply H.
  - apply dotted_sound. intros x I. left. now apply H.
  - destruct (split_some "." p) as [x [xs E]]. rewrite E in *. intros l U. apply read_dotted; [|exact U].
    apply forallb_forall. exact H.
Qed.

(** ** Annotations of the class *)

Definition plain_annos (ns : list string) : list anno := map (fun w => mkAnno w []) ns.
Lemma join_empty : forall a l, join "" (a :: l) = a ++ join "" l.
Proof. intros a [|b l]; [cbn; now rewrite app_nil_r_s|reflexivity]. Qed.
Lemma annotations_start : forall l ns, annotations l ns -> plain_start (join "" l) = true.
Proof.
  intros l ns A. induction A; [reflexivity| |]; rewrite join_empty; [exact IHA|reflexivity].
Qed.
Lemma annotations_lex : forall l ns, annotations l ns -> lexes (concat_all l) (flats (flat_map anno_trees (plain_annos ns))).
Proof.
  intros l ns A. unfold concat_all. induction A as [|l ns A IH|n l ns N A IH]; [apply lexes_nil|rewrite join_empty; exact IH|].
  rewrite join_empty. unfold plain_annos. cbn [map flat_map]. rewrite flats_app. fold (plain_annos ns).
  apply lexes_before; [|exact IH|now apply annotations_start with ns].
  change (flats (anno_trees (mkAnno n []))) with ([TMark "@"] ++ [TWord n])%list.
  apply lexes_after; [now apply lexes_given|reflexivity|]. now apply lexes_word, identifier_word.
Qed.
Lemma annotations_ok : forall l ns, annotations l ns -> forall a, In a (plain_annos ns) -> anno_ok a.
Proof.
  intros l ns A. induction A as [|l ns A IH|n l ns N A IH]; intros a I; [destruct I|now apply IH|].
  destruct I as [<-|I]; [|now apply IH]. split; [exact N|intros x []].
Qed.
Lemma plain_sound : forall ns, forallb sound (flat_map anno_trees (plain_annos ns)) = true.
Proof. induction ns as [|n ns IH]; [reflexivity|]. exact IH. Qed.

Section Entity.
Variables camel lower_camel snake : string -> string.
Variable o : kt_opt.
Variable ks : list kt_class.
Notation field := (new_kt_field lower_camel snake).
Notation prop c := (lower_camel (c_name c)).
Notation col_ok := (col_ok lower_camel).
Notation ref_ok := (ref_ok lower_camel o ks).
Notation class t := (new_kt_class camel lower_camel snake o t).
Notation body := (body lower_camel snake o ks).

Lemma col_of : forall c, kf_col (field c) = c.
Proof. intros c. unfold new_kt_field. now destruct (kt_type_of (c_type c)) as [[a b] d]. Qed.
Lemma pk_is : forall t, kc_pk (class t) = map field (keys t).
Proof. intros t. unfold new_kt_class. cbn [kc_pk]. rewrite filter_map_comm. unfold keys. f_equal. apply filter_ext. intros c. now rewrite col_of. Qed.
Lemma unique_is : forall t, kc_unique (class t) = map field (filter c_uq (t_cols t)).
Proof. intros t. unfold new_kt_class. cbn [kc_unique]. rewrite filter_map_comm. f_equal. apply filter_ext. intros c. now rewrite col_of. Qed.
Lemma name_of_field : forall c, kf_name (field c) = prop c.
Proof. intros c. unfold new_kt_field. now destruct (kt_type_of (c_type c)) as [[a b] d]. Qed.

(** ** The table *)

Definition the_table (t : table) : anno :=
  match filter c_uq (t_cols t) with
  | [] => mkAnno "Table" [("name", text_of (t_name t))]
  | us => mkAnno "Table" [("name", text_of (t_name t)); ("uniqueConstraints", [Group "[" [Leaf (TWord "UniqueConstraint");
           Group "(" ([Leaf (TWord "name"); Leaf (TMark "="); Leaf (TText (t_name t ++ ko_suffix o)); Leaf (TMark ",");
                       Leaf (TWord "columnNames"); Leaf (TMark "="); Group "[" (joined (map (fun c => text_of (prop c)) us))])]])]
  end.
Lemma word_text : forall s, word s -> lexes (kt_quote s) [TText s].
Proof. intros s W. apply (lexes_quote s). apply W. Qed.
Lemma flats_square : forall ts r, flats (Group "[" ts :: r) = (TMark "[" :: flats ts ++ TMark "]" :: flats r)%list.
Proof. intros ts r. unfold flats. cbn [flat_map flat]. fold (flats ts). fold (flats r). cbn [app]. now rewrite <- app_assoc. Qed.
Lemma table_block : forall t, word (t_name t) -> all_chars (fun c => word_char c = true) (ko_suffix o) ->
  (forall c, In c (t_cols t) -> word (prop c)) -> block (table_lines o (class t)) (flats (anno_trees (the_table t))).
Proof.
  intros t W S C. unfold table_lines. rewrite unique_is. change (kc_table (class t)) with t. unfold the_table.
  assert (H : forall c, In c (filter c_uq (t_cols t)) -> word (prop c)) by (intros c I; apply filter_In in I; apply C, I).
  revert H. generalize (filter c_uq (t_cols t)). intros us H. destruct us as [|u us].
  - cbn [map]. apply block_one.
    change (flats (anno_trees (mkAnno "Table" [("name", text_of (t_name t))]))) with
      ([TMark "@"; TWord "Table"; TMark "("; TWord "name"; TMark "="] ++ [TText (t_name t)] ++ [TMark ")"])%list.
    apply lexes_after; [now apply lexes_given|reflexivity|]. apply lexes_before; [now apply word_text|now apply lexes_given|reflexivity].
  - change (map field (u :: us)) with (field u :: map field us). cbn iota.
    change (field u :: map field us) with (map field (u :: us)). rewrite map_map.
    set (names := joined (map (fun c => text_of (prop c)) (u :: us))).
    assert (L : lexes (join ", " (map (fun c => kt_quote (kf_name (field c))) (u :: us))) (flats names)).
    { subst names. apply lexes_commas. revert H. generalize (u :: us). clear. intros l H.
      induction l as [|c l IH]; [constructor|]. cbn [map]. constructor; [|apply IH; intros x I; apply H; now right].
      rewrite name_of_field. apply word_text, H. now left. }
    clearbody names. cbv zeta.
    set (inner := [Leaf (TWord "name"); Leaf (TMark "="); Leaf (TText (t_name t ++ ko_suffix o)); Leaf (TMark ",");
                   Leaf (TWord "columnNames"); Leaf (TMark "="); Group "[" names]).
    assert (E : flats (anno_trees (mkAnno "Table" [("name", text_of (t_name t)); ("uniqueConstraints", [Group "[" [Leaf (TWord "UniqueConstraint"); Group "(" inner]])])) =
      (([TMark "@"; TWord "Table"; TMark "("; TWord "name"; TMark "="] ++ [TText (t_name t)] ++
         [TMark ","; TWord "uniqueConstraints"; TMark "="; TMark "["]) ++
       ([TWord "UniqueConstraint"; TMark "("; TWord "name"; TMark "="] ++ [TText (t_name t ++ ko_suffix o)] ++
         [TMark ","; TWord "columnNames"; TMark "="; TMark "["] ++ flats names ++ [TMark "]"; TMark ")"]) ++ [TMark "]"; TMark ")"])%list).
    { unfold anno_trees. cbn [an_name an_args map joined arg_trees fst snd String.eqb app]. unfold arg_trees. cbn [fst snd].
      change (String.eqb "name" "") with false. change (String.eqb "uniqueConstraints" "") with false. cbn iota.
      change (flats (Leaf (TMark "@") :: Leaf (TWord "Table") :: ?x)) with (TMark "@" :: TWord "Table" :: flats x). rewrite flats_group.
      unfold text_of. cbn [app].
      match goal with |- context [flats [Leaf ?a; Leaf ?b; Leaf ?c; ?d; Leaf ?e; Leaf ?f; ?g]] =>
        change (flats [Leaf a; Leaf b; Leaf c; d; Leaf e; Leaf f; g]) with ([a; b; c; TMark ","; e; f] ++ flats [g])%list end.
      rewrite flats_square.
      change (flats [Leaf (TWord "UniqueConstraint"); Group "(" inner]) with (TWord "UniqueConstraint" :: flats [Group "(" inner]).
      rewrite flats_group. subst inner.
      match goal with |- context [flats [Leaf ?a; Leaf ?b; Leaf ?c; Leaf ?d; Leaf ?e; Leaf ?f; ?g]] =>
        change (flats [Leaf a; Leaf b; Leaf c; Leaf d; Leaf e; Leaf f; g]) with ([a; b; c; d; e; f] ++ flats [g])%list end.
      rewrite flats_square. change (flats []) with (@nil tok). cbn [app]. rewrite <- !app_assoc. cbn [app]. reflexivity. }
    rewrite E. apply block_cons; [|apply block_cons; [|apply block_one; now apply lexes_given]].
    + apply lexes_after; [now apply lexes_given|reflexivity|]. apply lexes_before; [now apply word_text|now apply lexes_given|reflexivity].
    + apply lexes_after; [now apply lexes_given|reflexivity|].
      apply lexes_before; [apply word_text; now apply word_more| |reflexivity].
      apply lexes_after; [now apply lexes_given|reflexivity|]. apply lexes_before; [exact L|now apply lexes_given|reflexivity].
Qed.
Lemma table_sound : forall t, forallb sound (anno_trees (the_table t)) = true.
Proof.
  intros t. unfold the_table. generalize (filter c_uq (t_cols t)). intros [|u us]; [reflexivity|].
  assert (S : forallb sound (joined (map (fun c => text_of (prop c)) (u :: us))) = true).
  { apply joined_sound. generalize (u :: us). intros l. induction l as [|c l IH]; [reflexivity|exact IH]. }
  revert S. generalize (joined (map (fun c => text_of (prop c)) (u :: us))). intros names S. cbn. now rewrite S.
Qed.
Lemma table_ok : forall t, anno_ok (the_table t).
Proof.
  intros t. unfold the_table. destruct (filter c_uq (t_cols t)) as [|u us]; (split; [reflexivity|]); cbn [an_args]; intros x I; cbn [In] in I.
  - destruct I as [<-|[]]. now apply keyed_ok.
  - destruct I as [<-|[<-|[]]]; now apply keyed_ok.
Qed.

(** ** The key *)

Definition identity_of (t : table) : option column :=
  if String.eqb (ko_identity o) "" then None
  else match keys t with [c] => if String.eqb (prop c) "id" then Some c else None | _ => None end.
Lemma has_identity_is : forall t, has_identity o (class t) = match identity_of t with Some c => Some (field c) | None => None end.
Proof.
  intros t. unfold has_identity, identity_of. rewrite pk_is. destruct (String.eqb (ko_identity o) ""); [reflexivity|].
  destruct (keys t) as [|c [|d l]]; [reflexivity| |reflexivity]. cbn [map]. rewrite name_of_field. now destruct (String.eqb (prop c) "id").
Qed.
Definition super_of (t : table) : list tree :=
  match identity_of t with
  | Some c => ([Leaf (TWord (ko_identity o)); Leaf (TMark "<")] ++ type_trees c ++ [Leaf (TMark ">")])%list
  | None => []
  end.
Definition compositeb (t : table) : bool := Nat.ltb 1 (length (keys t)).
Lemma composite_is : forall t, composite (class t) = compositeb t.
Proof. intros t. unfold composite, compositeb. now rewrite pk_is, map_length. Qed.
Definition the_ids (name : string) : list anno :=
  [mkAnno "IdClass" [("", [Leaf (TWord (name ++ "PK")); Leaf (TMark ":"); Leaf (TMark ":"); Leaf (TWord "class")])]].

Lemma type_plain : forall c l, plain_super l = true -> plain_super (type_trees c ++ l) = true.
Proof.
  intros c l P. unfold type_trees.
  assert (K : forall k, In k kinds -> plain_super (Leaf (TWord k) :: l) = true /\ plain_super (Leaf (TWord k) :: Leaf (TMark "?") :: l) = true).
  { intros k I. unfold kinds in I. cbn [In] in I.
    repeat (destruct I as [<-|I]; [split; cbn [plain_super]; cbn; now rewrite P|]). destruct I. }
  destruct (c_notnull c); apply K, kind_in.
Qed.
Lemma super_plain : forall t, (ko_identity o = "" \/ identifier (ko_identity o) = true) -> plain_super (super_of t) = true.
Proof.
  intros t I. unfold super_of. destruct (identity_of t) as [c|] eqn:E; [|reflexivity].
  destruct I as [I|I]; [unfold identity_of in E; rewrite I in E; discriminate|].
  change ([Leaf (TWord (ko_identity o)); Leaf (TMark "<")] ++ type_trees c ++ [Leaf (TMark ">")])%list with
    (Leaf (TWord (ko_identity o)) :: (Leaf (TMark "<") :: (type_trees c ++ [Leaf (TMark ">")])))%list.
  assert (P : plain_super (Leaf (TMark "<") :: (type_trees c ++ [Leaf (TMark ">")])) = true).
  { change (plain_super (type_trees c ++ [Leaf (TMark ">")]) = true). now apply type_plain. }
  revert P. generalize (type_trees c ++ [Leaf (TMark ">")])%list. intros l P.
  change (plain_super (Leaf (TWord (ko_identity o)) :: Leaf (TMark "<") :: l)) with
    (negb false && negb (String.eqb "interface" (ko_identity o)) && negb (String.eqb "data" (ko_identity o) && false) && negb (String.eqb "class" (ko_identity o))
     && plain_super (Leaf (TMark "<") :: l)).
  rewrite P, andb_false_r. rewrite (not_keyword _ "interface" I), (not_keyword _ "class" I) by (cbn; tauto). reflexivity.
Qed.
Lemma super_lexes : forall t c, identifier (ko_identity o) = true -> In (c_type c) octopus_types ->
  identity_of t = Some c ->
  lexes (": " ++ ko_identity o ++ "<" ++ kf_type (field c) ++ ">") (flats (Leaf (TMark ":") :: super_of t)).
Proof.
  intros t c I T E. unfold super_of. rewrite E.
  replace (flats _) with ([TMark ":"] ++ [TWord (ko_identity o)] ++ [TMark "<"] ++ flats (type_trees c) ++ [TMark ">"])%list.
  2: { cbn [app]. change (flats (Leaf (TMark ":") :: Leaf (TWord (ko_identity o)) :: Leaf (TMark "<") :: ?l)) with
         (TMark ":" :: TWord (ko_identity o) :: TMark "<" :: flats l). rewrite flats_app. reflexivity. }
  apply lexes_after; [now apply lexes_given|reflexivity|]. apply lexes_before; [now apply lexes_word, identifier_word| |reflexivity].
  apply lexes_after; [now apply lexes_given|reflexivity|]. apply lexes_before; [now apply type_lexes|now apply lexes_given|reflexivity].
Qed.

(** ** The id class *)

Definition id_trees (cs : list column) : list tree := joined (map (rest_trees lower_camel false) cs).
Lemma id_block : forall cs, Forall col_ok cs -> (forall c, In c cs -> c_notnull c = true) ->
  block (id_lines (map field cs)) (flats (id_trees cs)).
Proof.
  intros cs H N. unfold id_trees. induction cs as [|c cs IH]; [apply block_nil|]. inversion H as [|? ? C H']; subst.
  assert (B := IH H' (fun x I => N x (or_intror I))). clear IH.
  pose proof (fun tail ts => rest_lexes lower_camel snake false c tail ts C) as R. rewrite (N c (or_introl eq_refl)) in R.
  destruct cs as [|d cs].
  - cbn [map id_lines joined]. apply block_one. rewrite <- (app_nil_r (flats _)). apply indent_lexes.
    apply (R "" []); [apply lexes_nil|reflexivity].
  - change (map field (c :: d :: cs)) with (field c :: map field (d :: cs)). cbn [id_lines].
    change (joined (map (rest_trees lower_camel false) (c :: d :: cs))) with
      (rest_trees lower_camel false c ++ [comma] ++ joined (map (rest_trees lower_camel false) (d :: cs)))%list.
    rewrite !flats_app, app_assoc. apply block_cons; [|exact B]. apply indent_lexes.
    apply (R "," [TMark ","]); [now apply lexes_given|reflexivity].
Qed.
Lemma rest_item : forall c, col_ok c -> uncomma (rest_trees lower_camel false c) = true /\ rest_trees lower_camel false c <> [].
Proof. intros c C. split; [now apply rest_uncomma|]. discriminate. Qed.
Definition id_param (c : column) : param :=
  mkParam [] false (prop c) (type_trees c) (if c_notnull c then Some (kt (value (c_type c))) else None).
Lemma id_reads : forall cs, Forall col_ok cs -> read_all read_param (items (id_trees cs)) = Some (map id_param cs).
Proof.
  intros cs H. unfold id_trees. rewrite items_joined.
  - induction H as [|c cs C H IH]; [reflexivity|]. cbn [map read_all].
    rewrite (rest_reads lower_camel [] false c C ltac:(intros a []) : read_param (rest_trees lower_camel false c) = _).
    rewrite IH. reflexivity.
  - intros x I. apply in_map_iff in I as [c [<- I]]. rewrite Forall_forall in H. now apply rest_item, H.
Qed.
Lemma id_sound : forall cs, Forall col_ok cs -> forallb sound (id_trees cs) = true.
Proof.
  intros cs H. unfold id_trees. apply joined_sound. induction H as [|c cs C H IH]; [reflexivity|]. cbn [map forallb].
  now rewrite IH, rest_sound.
Qed.

(** ** Imports *)

Lemma imports_of : forall c i, In (c_type c) octopus_types ->
  (In i (kf_imports (field c)) <-> home (kind (c_type c)) <> [] /\ i = join "." (home (kind (c_type c)))).
Proof.
  intros c i I. unfold new_kt_field. rewrite (type_of_is _ I). cbn [kf_imports]. rewrite slice_in.
  assert (H := kind_in (c_type c)). revert H. generalize (kind (c_type c)). intros k K.
  assert (Z : String.eqb (join "." (home k)) "" = match home k with [] => true | _ => false end).
  { unfold kinds in K. cbn [In] in K. repeat (destruct K as [<-|K]; [reflexivity|]). destruct K. }
  rewrite Z. destruct (home k) as [|x l]; cbn [ss_new fold_left].
  - split; [intros []|intros [H _]; congruence].
  - rewrite ss_add_in. cbn [In]. split; [intros [->|[]]; split; [discriminate|reflexivity]|intros [_ ->]; now left].
Qed.
Lemma home_java : forall c, home (kind (c_type c)) <> [] -> has_prefix "java." (join "." (home (kind (c_type c)))) = true.
Proof.
  intros c. assert (K := kind_in (c_type c)). revert K. generalize (kind (c_type c)). intros k K.
  unfold kinds in K. cbn [In] in K. repeat (destruct K as [<-|K]; [vm_compute; congruence|]). destruct K.
Qed.
Lemma home_known : forall c, home (kind (c_type c)) <> [] -> In (join "." (home (kind (c_type c)))) known_imports.
Proof.
  intros c. assert (K := kind_in (c_type c)). revert K. generalize (kind (c_type c)). intros k K.
  unfold kinds in K. cbn [In] in K. repeat (destruct K as [<-|K]; [intros N; first [now destruct N|vm_compute; tauto]|]). destruct K.
Qed.
Definition audit_import (name : string) : string := "org.hibernate.annotations." ++ name.
Lemma kt_imports_in : forall t i, (forall c, In c (t_cols t) -> In (c_type c) octopus_types) ->
  (In i (kt_imports (class t)) <-> exists c, In c (t_cols t) /\
     ((is_named lower_camel "createdAt" c = true /\ i = audit_import "CreationTimestamp") \/
      (is_named lower_camel "updatedAt" c = true /\ i = audit_import "UpdateTimestamp"))).
Proof.
  intros t i H. unfold kt_imports. change (kc_fields (class t)) with (map field (t_cols t)).
  assert (G : forall cs s, (forall c, In c cs -> In (c_type c) octopus_types) ->
    (In i (fold_left (fun s f =>
      let s := ss_add_all s (filter (fun i => negb (has_prefix "java." i)) (kf_imports f)) in
      let s := if is_audit_field "createdAt" f then ss_add s "org.hibernate.annotations.CreationTimestamp" else s in
      if is_audit_field "updatedAt" f then ss_add s "org.hibernate.annotations.UpdateTimestamp" else s) (map field cs) s) <->
     In i s \/ exists c, In c cs /\
     ((is_named lower_camel "createdAt" c = true /\ i = audit_import "CreationTimestamp") \/
      (is_named lower_camel "updatedAt" c = true /\ i = audit_import "UpdateTimestamp")))).
  { induction cs as [|c cs IH]; intros s Q.
    - cbn. split; [now left|intros [J|[c [[] _]]]; exact J].
    - cbn [map fold_left]. rewrite IH by (intros x J; apply Q; now right).
      assert (F : filter (fun i => negb (has_prefix "java." i)) (kf_imports (field c)) = []).
      { destruct (filter _ _) as [|x l] eqn:E; [reflexivity|]. exfalso. assert (J : In x (x :: l)) by now left. rewrite <- E in J.
        apply filter_In in J as [J K]. apply imports_of in J as [J ->]; [|apply Q; now left]. rewrite (home_java c J) in K. discriminate. }
      rewrite F. change (ss_add_all s []) with s. unfold is_audit_field. rewrite col_of, name_of_field.
      fold (is_named lower_camel "createdAt" c). fold (is_named lower_camel "updatedAt" c).
      unfold audit_import. change ("org.hibernate.annotations." ++ "CreationTimestamp") with "org.hibernate.annotations.CreationTimestamp".
      change ("org.hibernate.annotations." ++ "UpdateTimestamp") with "org.hibernate.annotations.UpdateTimestamp".
      assert (X : In i (let s0 := if is_named lower_camel "createdAt" c then ss_add s "org.hibernate.annotations.CreationTimestamp" else s in
         if is_named lower_camel "updatedAt" c then ss_add s0 "org.hibernate.annotations.UpdateTimestamp" else s0) <->
         In i s \/ ((is_named lower_camel "createdAt" c = true /\ i = "org.hibernate.annotations.CreationTimestamp") \/
                    (is_named lower_camel "updatedAt" c = true /\ i = "org.hibernate.annotations.UpdateTimestamp"))).
      { destruct (is_named lower_camel "createdAt" c), (is_named lower_camel "updatedAt" c); cbv zeta; rewrite ?ss_add_in; intuition congruence. }
      cbv zeta in X |- *. rewrite X. split.
      + intros [[J|J]|[d [D J]]]; [now left|right; exists c; split; [now left|exact J]|right; exists d; split; [now right|exact J]].
      + intros [J|[d [[<-|D] J]]]; [now left; left|left; now right|right; now exists d]. }
  rewrite G by exact H. cbn. tauto.
Qed.
Lemma java_imports_in : forall t i, (forall c, In c (t_cols t) -> In (c_type c) octopus_types) ->
  (In i (java_imports (class t)) <-> i = "javax.persistence.*" \/ (compositeb t = true /\ i = "java.io.Serializable") \/
     exists c, In c (t_cols t) /\ home (kind (c_type c)) <> [] /\ i = join "." (home (kind (c_type c)))).
Proof.
  intros t i H. unfold java_imports. change (kc_fields (class t)) with (map field (t_cols t)). rewrite composite_is. cbv zeta.
  assert (G : forall cs s, (forall c, In c cs -> In (c_type c) octopus_types) ->
    (In i (fold_left (fun s f => ss_add_all s (filter (has_prefix "java.") (kf_imports f))) (map field cs) s) <->
     In i s \/ exists c, In c cs /\ home (kind (c_type c)) <> [] /\ i = join "." (home (kind (c_type c))))).
  { induction cs as [|c cs IH]; intros s Q.
    - cbn. split; [now left|intros [J|[c [[] _]]]; exact J].
    - cbn [map fold_left]. rewrite IH by (intros x J; apply Q; now right). rewrite add_all_in, filter_In, imports_of by (apply Q; now left). split.
      + intros [[J|[J _]]|[d [D J]]]; [now left|right; exists c; split; [now left|exact J]|right; exists d; split; [now right|exact J]].
      + intros [J|[d [[<-|D] J]]]; [now left; left| |right; now exists d]. left. right. split; [exact J|]. destruct J as [J ->]. now apply home_java. }
  rewrite G by exact H. destruct (compositeb t); rewrite ?ss_add_in; cbn [ss_new fold_left In]; intuition congruence.
Qed.
Lemma kt_known : forall t i, (forall c, In c (t_cols t) -> In (c_type c) octopus_types) -> In i (ss_slice (kt_imports (class t))) -> In i known_imports.
Proof.
  intros t i H I. rewrite slice_in in I. apply (kt_imports_in t i H) in I as [c [_ [[_ ->]|[_ ->]]]]; vm_compute; tauto.
Qed.
Lemma java_known : forall t i, (forall c, In c (t_cols t) -> In (c_type c) octopus_types) -> In i (ss_slice (java_imports (class t))) -> In i known_imports.
Proof.
  intros t i H I. rewrite slice_in in I. apply (java_imports_in t i H) in I as [->|[[_ ->]|[c [_ [N ->]]]]]; [vm_compute; tauto|vm_compute; tauto|now apply home_known].
Qed.
End Entity.
