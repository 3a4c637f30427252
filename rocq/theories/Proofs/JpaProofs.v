(** The properties of a Kotlin class *)
From Coq Require Import String Ascii List NArith Bool Lia Arith.
From Verif.Model Require Import GoString Util Octopus Common Jpa.
From Verif.Spec Require Import Text Reading OctopusSpec GraphqlSpec KotlinSpec.
From Verif.Proofs Require Import StringLemmas UtilProofs ReadingProofs SqlalchemyProofs KotlinProofs.
From Verif.Spec Require Import KotlinSpec.
Import ListNotations.
Local Open Scope string_scope.

(** ** Types *)

Definition default_of (ty : string) : option (string * string) :=
  match find (fun p => str_in ty (fst p)) kt_types with Some (_, kv) => Some kv | None => None end.
Lemma default_iff : forall c k v, kt_default c k v <-> default_of (c_type c) = Some (k, v).
Proof.
  intros c k v. split.
  - intros [ts [I J]]. destruct c as [n ty d sz sc nn pk uq ai df ou vs rf]. cbn [c_type] in *. unfold kt_types in I. cbn in I.
    repeat (destruct I as [I|I]; [injection I as <- <- <-; cbn in J; repeat (destruct J as [<-|J]; [reflexivity|]); destruct J|]).
    destruct I.
  - unfold default_of. destruct (find _ kt_types) as [[ts kv]|] eqn:F; [|discriminate]. intros E. injection E as ->.
    apply find_some in F as [F G]. exists ts. split; [exact F|]. now apply str_in_iff.
Qed.
Lemma default_none : forall c, default_of (c_type c) = None <-> ~ has_default c.
Proof.
  intros c. split.
  - intros N [k [v H]]. apply default_iff in H. congruence.
  - intros H. destruct (default_of (c_type c)) as [[k v]|] eqn:E; [|reflexivity]. exfalso. apply H. exists k, v. now apply default_iff.
Qed.
Definition kind (ty : string) : string :=
  match default_of ty with Some (k, _) => k | None => if str_in ty blob_types then "Blob" else "Any" end.
Definition value (ty : string) : string := match default_of ty with Some (_, v) => v | None => "" end.
(** what has to be imported for a type *)
Definition home (k : string) : list string :=
  match find (fun p => String.eqb (fst p) k) kt_homes with Some (_, p) => p | None => [] end.
Lemma type_of_is : forall ty, In ty octopus_types -> kt_type_of ty = (kind ty, join "." (home (kind ty)), value ty).
Proof.
  intros ty I.
  assert (C : forallb (fun ty => let '(a, b, c) := kt_type_of ty in
    String.eqb a (kind ty) && String.eqb b (join "." (home (kind ty))) && String.eqb c (value ty)) octopus_types = true) by (vm_compute; reflexivity).
  rewrite forallb_forall in C. specialize (C ty I). destruct (kt_type_of ty) as [[a b] c].
  apply andb_true_iff in C as [C C3]. apply andb_true_iff in C as [C1 C2]. apply String.eqb_eq in C1, C2, C3. now subst.
Qed.
Lemma kind_for : forall c, kt_type_for c (kind (c_type c)).
Proof.
  intros c. unfold kind. destruct (default_of (c_type c)) as [[k v]|] eqn:E.
  - left. exists v. now apply default_iff.
  - right. destruct (str_in (c_type c) blob_types) eqn:B.
    + left. split; [now apply str_in_iff|reflexivity].
    + right. split; [now apply default_none|]. split; [now apply str_in_false|reflexivity].
Qed.
Definition kinds : list string :=
  ["String"; "Boolean"; "Int"; "Long"; "BigDecimal"; "Float"; "Double"; "Timestamp"; "LocalDate"; "LocalTime"; "Blob"; "Any"].
Lemma kind_in : forall ty, In (kind ty) kinds.
Proof.
  intros ty. unfold kind. destruct (default_of ty) as [[k v]|] eqn:E.
  - unfold default_of in E. destruct (find _ kt_types) as [[ts kv]|] eqn:F; [|discriminate]. injection E as ->. apply find_some in F as [F _].
    unfold kt_types in F. cbn in F. repeat (destruct F as [F|F]; [injection F as <- <- <-; cbn; tauto|]). destruct F.
  - destruct (str_in ty blob_types); cbn; tauto.
Qed.
Lemma kind_identifier : forall ty, identifier (kind ty) = true.
Proof.
  intros ty. assert (H := kind_in ty). assert (C : forallb identifier kinds = true) by reflexivity. rewrite forallb_forall in C. now apply C.
Qed.
(** the values *)
Definition no_equals (l : list tree) : bool := forallb (fun t => negb (is_mark "=" t)) l.
Lemma value_facts : forall c, has_default c ->
  tokens (value (c_type c)) = Some (flats (kt (value (c_type c)))) /\ forallb sound (kt (value (c_type c))) = true /\
  uncomma (kt (value (c_type c))) = true /\ kt (value (c_type c)) <> [].
Proof.
  intros c [k [v H]]. apply default_iff in H. unfold value. rewrite H. unfold default_of in H.
  destruct (find _ kt_types) as [[ts kv]|] eqn:F; [|discriminate]. injection H as ->. apply find_some in F as [F _].
  unfold kt_types in F. cbn in F.
  repeat (destruct F as [F|F]; [injection F as <- <- <-; (split; [vm_compute; reflexivity|split; [vm_compute; reflexivity|split; [vm_compute; reflexivity|vm_compute; discriminate]]])|]).
  destruct F.
Qed.

Lemma lower_octopus : forall ty, In ty octopus_types -> to_lower ty = ty.
Proof.
  intros ty I. assert (C : forallb (fun ty => String.eqb (to_lower ty) ty) octopus_types = true) by (vm_compute; reflexivity).
  rewrite forallb_forall in C. specialize (C ty I). now apply String.eqb_eq in C.
Qed.

Lemma forall2_app : forall {A B} (P : A -> B -> Prop) a b x y, Forall2 P a x -> Forall2 P b y -> Forall2 P (a ++ b) (x ++ y).
Proof. intros. now apply Forall2_app. Qed.
Lemma forall2_if : forall {A B} (P : A -> B -> Prop) (b : bool) x y, (b = true -> P x y) ->
  Forall2 P (if b then [x] else []) (if b then [y] else []).
Proof. intros A B P [] x y H; constructor; [now apply H|constructor]. Qed.
Lemma map_if : forall {A B} (f : A -> B) (b : bool) x, map f (if b then [x] else []) = if b then [f x] else [].
Proof. now intros A B f []. Qed.

(** lists, as trees *)
Lemma lexes_commas : forall l xs, Forall2 lexes l (map flats xs) -> lexes (join ", " l) (flats (joined xs)).
Proof.
  intros l xs H. assert (J := lexes_joined ", " [TMark ","] eq_refl eq_refl eq_refl ltac:(discriminate) _ _ H). clear H.
  destruct xs as [|x xs]; [exact J|]. cbn [map] in J.
  replace (flats (joined (x :: xs))) with (flats x ++ flat_map (fun y => ([TMark ","] ++ y)%list) (map flats xs))%list; [exact J|]. clear J.
  revert x. induction xs as [|y xs IH]; intros x; [cbn; now rewrite app_nil_r|].
  change (joined (x :: y :: xs)) with (x ++ comma :: joined (y :: xs))%list. rewrite flats_app.
  change (flats (comma :: joined (y :: xs))) with (TMark "," :: flats (joined (y :: xs))). now rewrite <- IH.
Qed.
Lemma joined_sound : forall l, forallb (forallb sound) l = true -> forallb sound (joined l) = true.
Proof.
  intros [|x l] H; [reflexivity|]. revert x H. induction l as [|y l IH]; intros x H; cbn in H.
  - cbn [joined]. now rewrite andb_true_r in H.
  - apply andb_true_iff in H as [A B]. change (joined (x :: y :: l)) with (x ++ comma :: joined (y :: l))%list.
    rewrite forallb_app, A. exact (IH y B).
Qed.
Lemma lexes_quote : forall s, all_chars (fun c => word_char c = true) s -> lexes (kt_quote s) (flats (text_of s)).
Proof. intros s H. exact (lexes_text s H). Qed.

Section Columns.
Variables camel lower_camel snake : string -> string.
Variable o : kt_opt.
Variable ks : list kt_class.
Notation field := (new_kt_field lower_camel snake).
Notation prop c := (lower_camel (c_name c)).

(** what is known about a column *)
Definition col_ok (c : column) : Prop :=
  word (c_name c) /\ identifier (prop c) = true /\ In (c_type c) octopus_types /\ (c_notnull c = true -> has_default c).

Lemma field_is : forall c, In (c_type c) octopus_types ->
  kf_col (field c) = c /\ kf_name (field c) = prop c /\ kf_override (field c) = negb (String.eqb (c_name c) (snake (prop c))) /\
  kf_type (field c) = kind (c_type c) ++ (if c_notnull c then "" else "?") /\
  kf_default (field c) = (if c_notnull c then value (c_type c) else "").
Proof.
  intros c I. unfold new_kt_field. rewrite (type_of_is _ I). cbn [kf_col kf_name kf_override kf_type kf_default].
  repeat split. destruct (c_notnull c); [now rewrite app_nil_r_s|reflexivity].
Qed.
Definition type_trees (c : column) : list tree := Leaf (TWord (kind (c_type c))) :: (if c_notnull c then [] else [Leaf (TMark "?")]).
Lemma type_lexes : forall c, In (c_type c) octopus_types -> lexes (kf_type (field c)) (flats (type_trees c)).
Proof.
  intros c I. destruct (field_is c I) as [_ [_ [_ [-> _]]]]. unfold type_trees.
  assert (W := lexes_word _ (identifier_word _ (kind_identifier (c_type c)))). destruct (c_notnull c).
  - rewrite app_nil_r_s. exact W.
  - change (flats [Leaf (TWord (kind (c_type c))); Leaf (TMark "?")]) with ([TWord (kind (c_type c))] ++ [TMark "?"])%list.
    apply lexes_before; [exact W|now apply lexes_given|reflexivity].
Qed.

(** ** Annotations *)

Definition is_named (name : string) (c : column) : bool := String.eqb (c_type c) "datetime" && String.eqb (prop c) name.
Definition col_args (c : column) : list arg :=
  ((if negb (String.eqb (c_name c) (snake (prop c))) then [("name", text_of (c_name c))] else [])
   ++ (if c_notnull c then [("nullable", kt "false")] else [])
   ++ (if is_col_type_string (c_type c) && N.ltb 0 (c_size c) then [("length", number (c_size c))] else [])
   ++ (if is_col_type_decimal (c_type c) then
         (if N.ltb 0 (c_size c) then [("precision", number (c_size c))] else [])
         ++ (if N.ltb 0 (c_scale c) then [("scale", number (c_scale c))] else [])
       else [])
   ++ (if is_named "createdAt" c then [("updatable", kt "false")] else []))%list.
Definition relations (c : column) : list anno :=
  if String.eqb (ko_relation o) "VRelation" then
    match c_ref c with
    | None => []
    | Some r => [mkAnno "VRelation" [("cls", text_of (class_of_table ks (ref_table r)));
                                     ("field", text_of (lower_camel (ref_column r)))]]
    end
  else [].
Definition others (c : column) : list anno :=
  ((if c_pk c then [mkAnno "Id" []] else [])
   ++ (if c_autoinc c then [mkAnno "GeneratedValue" [("strategy", kt "GenerationType.AUTO")]] else [])
   ++ (if is_col_type_clob (c_type c) then [mkAnno "Lob" []] else [])
   ++ relations c
   ++ (if is_named "createdAt" c then [mkAnno "CreationTimestamp" []] else [])
   ++ (if is_named "updatedAt" c then [mkAnno "UpdateTimestamp" []] else []))%list.
Definition columns (c : column) : list anno := match col_args c with [] => [] | l => [mkAnno "Column" l] end.
Definition annos (c : column) : list anno := (others c ++ columns c)%list.

(** the references lead to classes *)
Definition ref_ok (c : column) : Prop :=
  forall r, ko_relation o = "VRelation" -> c_ref c = Some r ->
    word (class_of_table ks (ref_table r)) /\ word (lower_camel (ref_column r)).

Lemma lexes_keyed : forall k v ts, identifier k = true -> lexes v (flats ts) -> lexes (k ++ " = " ++ v) (flats (arg_trees (k, ts))).
Proof.
  intros k v ts K V. unfold arg_trees. cbn [fst snd]. destruct (String.eqb_spec k "") as [->|N]; [discriminate|].
  change (flats (Leaf (TWord k) :: Leaf (TMark "=") :: ts)) with ([TWord k] ++ [TMark "="] ++ flats ts)%list.
  apply lexes_before; [now apply lexes_word, identifier_word| |reflexivity].
  apply lexes_after; [now apply lexes_given|reflexivity|exact V].
Qed.
Lemma number_lexes : forall n, lexes (itoa n) (flats (number n)).
Proof. intros n. exact (lexes_word _ (itoa_word n)). Qed.
Lemma args_lex : forall c, word (c_name c) -> In (c_type c) octopus_types ->
  Forall2 lexes (column_attrs (field c)) (map flats (map arg_trees (col_args c))).
Proof.
  intros c W I. destruct (field_is c I) as [F1 [F2 [F3 _]]]. unfold column_attrs, is_audit_field. rewrite F1, F2, F3. unfold col_args.
  rewrite map_map. rewrite !map_app, !map_if.
  repeat apply forall2_app; try (apply forall2_if; intros _).
  - apply (lexes_keyed "name"); [reflexivity|]. apply lexes_quote. apply W.
  - now apply lexes_given.
  - apply (lexes_keyed "length"); [reflexivity|apply number_lexes].
  - destruct (is_col_type_decimal (c_type c)); [|constructor]. rewrite !map_app, !map_if.
    repeat apply forall2_app; apply forall2_if; intros _; [apply (lexes_keyed "precision")|apply (lexes_keyed "scale")];
      [reflexivity|apply number_lexes|reflexivity|apply number_lexes].
  - now apply lexes_given.
Qed.
Lemma anno_lexes : forall n args l, identifier n = true -> args <> [] -> Forall2 lexes l (map flats (map arg_trees args)) ->
  lexes ("@" ++ n ++ "(" ++ join ", " l ++ ")") (flats (anno_trees (mkAnno n args))).
Proof.
  intros n args l N A L. unfold anno_trees. cbn [an_name an_args]. destruct args as [|x args]; [congruence|].
  change (flats (Leaf (TMark "@") :: Leaf (TWord n) :: [Group "(" (joined (map arg_trees (x :: args)))])) with
    ([TMark "@"] ++ [TWord n] ++ [TMark "("] ++ ((flats (joined (map arg_trees (x :: args))) ++ [TMark ")"]) ++ []))%list.
  rewrite app_nil_r. apply lexes_after; [now apply lexes_given|reflexivity|].
  apply lexes_before; [now apply lexes_word, identifier_word| |reflexivity].
  apply lexes_after; [now apply lexes_given|reflexivity|].
  apply lexes_before; [now apply lexes_commas|now apply lexes_given|reflexivity].
Qed.
Lemma relations_lex : forall c, ref_ok c -> exists l, relation_annos lower_camel o ks c = Some l /\
  Forall2 lexes l (map flats (map anno_trees (relations c))).
Proof.
  intros c R. unfold relation_annos, relations. destruct (String.eqb_spec (ko_relation o) "VRelation") as [E|N]; [|exists []; now split; [|constructor]].
  destruct (c_ref c) as [r|] eqn:C; [|exists []; now split; [|constructor]]. destruct (R r E C) as [A B].
  destruct (String.eqb_spec (class_of_table ks (ref_table r)) "") as [Z|Z]; [destruct A; congruence|].
  eexists. split; [reflexivity|]. cbn [map]. constructor; [|constructor].
  generalize (class_of_table ks (ref_table r)) (lower_camel (ref_column r)) A B. clear. intros a b A B.
  replace ("@VRelation(cls = " ++ kt_quote a ++ ", field = " ++ kt_quote b ++ ")") with
    ("@" ++ "VRelation" ++ "(" ++ join ", " ["cls" ++ " = " ++ kt_quote a; "field" ++ " = " ++ kt_quote b] ++ ")").
  2: { generalize (kt_quote a) (kt_quote b). intros qa qb. cbn. now rewrite !app_assoc_s. }
  apply anno_lexes; [reflexivity|discriminate|].
  cbn [map]. constructor; [|constructor; [|constructor]].
  - apply (lexes_keyed "cls"); [reflexivity|]. apply lexes_quote, A.
  - apply (lexes_keyed "field"); [reflexivity|]. apply lexes_quote, B.
Qed.
Lemma annos_lex : forall c, col_ok c -> ref_ok c -> exists l, field_annos lower_camel o ks (field c) = Some l /\
  Forall2 lexes l (map flats (map anno_trees (annos c))).
Proof.
  intros c [W [P [I _]]] R. destruct (relations_lex c R) as [rel [E L]]. destruct (field_is c I) as [F1 [F2 _]].
  unfold field_annos. rewrite F1, E. eexists. split; [reflexivity|]. unfold annos, others. rewrite !map_app, !map_if, <- !app_assoc.
  unfold is_audit_field. rewrite F1, F2. fold (is_named "createdAt" c). fold (is_named "updatedAt" c).
  repeat apply forall2_app; try (apply forall2_if; intros _; now apply lexes_given); [exact L|].
  unfold columns. pose proof (args_lex c W I) as A. destruct (col_args c) as [|x args] eqn:Q.
  - cbn [map] in A. inversion A. constructor.
  - destruct (column_attrs (field c)) as [|y ys] eqn:Y; [inversion A|]. cbn [map]. constructor; [|constructor].
    apply (anno_lexes "Column" (x :: args) (y :: ys)); [reflexivity|discriminate|exact A].
Qed.

(** they can be read *)
Lemma number_uncomma : forall n, uncomma (number n) = true.
Proof. reflexivity. Qed.
Lemma args_ok : forall c x, In x (col_args c) -> arg_ok x.
Proof.
  intros c x I. unfold col_args in I. rewrite !in_app_iff in I.
  destruct I as [I|[I|[I|[I|I]]]].
  - destruct (negb _) in I; [|destruct I]. destruct I as [<-|[]]. now apply keyed_ok.
  - destruct (c_notnull c) in I; [|destruct I]. destruct I as [<-|[]]. now apply keyed_ok.
  - destruct (_ && _) in I; [|destruct I]. destruct I as [<-|[]]. now apply keyed_ok.
  - destruct (is_col_type_decimal _) in I; [|destruct I]. rewrite in_app_iff in I.
    destruct I as [I|I]; destruct (N.ltb _ _) in I; try destruct I as [<-|[]]; try destruct I; now apply keyed_ok.
  - destruct (is_named _ _) in I; [|destruct I]. destruct I as [<-|[]]. now apply keyed_ok.
Qed.
Ltac one I := first [destruct I as [<-|[]] | destruct I].
Lemma annos_ok : forall c a, In a (annos c) -> anno_ok a.
Proof.
  intros c a I. unfold annos, others, columns, relations in I. rewrite !in_app_iff in I.
  assert (P : forall n, identifier n = true -> anno_ok (mkAnno n [])) by (intros n N; split; [exact N|intros x []]).
  destruct I as [[I|[I|[I|[I|[I|I]]]]]|I].
  - destruct (c_pk c) in I; one I. now apply P.
  - destruct (c_autoinc c) in I; one I. split; [reflexivity|]. intros x [<-|[]]. now apply keyed_ok.
  - destruct (is_col_type_clob _) in I; one I. now apply P.
  - destruct (String.eqb _ _) in I; [|destruct I]. destruct (c_ref c) in I; one I.
    split; [reflexivity|]. intros x [<-|[<-|[]]]; now apply keyed_ok.
  - destruct (is_named _ _) in I; one I. now apply P.
  - destruct (is_named _ _) in I; one I. now apply P.
  - destruct (col_args c) as [|x l] eqn:Q; one I. split; [reflexivity|]. cbn [an_args]. rewrite <- Q. apply args_ok.
Qed.

Lemma args_sound : forall c, forallb (forallb sound) (map arg_trees (col_args c)) = true.
Proof.
  intros c. unfold col_args. rewrite !map_app, !map_if, !forallb_app.
  destruct (negb _), (c_notnull c), (is_col_type_string (c_type c) && N.ltb 0 (c_size c)), (is_col_type_decimal (c_type c)), (is_named "createdAt" c); cbn [forallb andb map];
    rewrite ?map_app, ?map_if, ?forallb_app; destruct (N.ltb 0 (c_size c)), (N.ltb 0 (c_scale c)); reflexivity.
Qed.
Lemma annos_sound : forall c, forallb sound (flat_map anno_trees (annos c)) = true.
Proof.
  intros c. unfold annos, others. rewrite !flat_map_app, !forallb_app.
  assert (R : forallb sound (flat_map anno_trees (relations c)) = true).
  { unfold relations. destruct (String.eqb _ _); [|reflexivity]. now destruct (c_ref c). }
  assert (C : forallb sound (flat_map anno_trees (columns c)) = true).
  { unfold columns. pose proof (args_sound c) as S. destruct (col_args c) as [|x l]; [reflexivity|].
    cbn [flat_map anno_trees an_name an_args app forallb sound]. rewrite (joined_sound _ S). reflexivity. }
  rewrite R, C. destruct (c_pk c), (c_autoinc c), (is_col_type_clob _), (is_named "createdAt" c), (is_named "updatedAt" c); reflexivity.
Qed.

(** ** Properties *)

Definition rest_trees (ov : bool) (c : column) : list tree :=
  ((if ov then [Leaf (TWord "override")] else []) ++ [Leaf (TWord "var"); Leaf (TWord (prop c)); Leaf (TMark ":")] ++ type_trees c
   ++ (if c_notnull c then Leaf (TMark "=") :: kt (value (c_type c)) else []))%list.
Definition param_trees (ov : bool) (c : column) : list tree := (flat_map anno_trees (annos c) ++ rest_trees ov c)%list.
Definition the_param (ov : bool) (c : column) : param :=
  mkParam (annos c) ov (prop c) (type_trees c) (if c_notnull c then Some (kt (value (c_type c))) else None).

Lemma type_equals : forall c v, until (is_mark "=") (type_trees c ++ Leaf (TMark "=") :: v) = (type_trees c, Leaf (TMark "=") :: v).
Proof. intros c v. unfold type_trees. now destruct (c_notnull c). Qed.
Lemma type_alone : forall c, until (is_mark "=") (type_trees c) = (type_trees c, []).
Proof. intros c. unfold type_trees. now destruct (c_notnull c). Qed.
Lemma rest_reads : forall l ov c, col_ok c -> (forall a, In a l -> anno_ok a) ->
  read_param (flat_map anno_trees l ++ rest_trees ov c) =
  Some (mkParam l ov (prop c) (type_trees c) (if c_notnull c then Some (kt (value (c_type c))) else None)).
Proof.
  intros l ov c [W [P [I D]]] L. unfold read_param. rewrite annos_read.
  2: { exact L. }
  2: { unfold rest_trees. destruct ov; reflexivity. }
  unfold rest_trees.
  assert (K : forall annos b, match [Leaf (TWord "var"); Leaf (TWord (prop c)); Leaf (TMark ":")] ++ type_trees c ++
       (if c_notnull c then Leaf (TMark "=") :: kt (value (c_type c)) else []) with
    | v :: n :: c :: l3 =>
      match is_word "var" v, name_of n, is_mark ":" c with
      | true, Some name, true =>
          match until (is_mark "=") l3 with
          | ([], _) => None
          | (ty, []) => Some (mkParam annos b name ty None)
          | (_, [_]) => None
          | (ty, _ :: d) => Some (mkParam annos b name ty (Some d))
          end
      | _, _, _ => None
      end
  | _ => None
  end%list = Some (mkParam annos b (prop c) (type_trees c) (if c_notnull c then Some (kt (value (c_type c))) else None))).
  { intros an b. cbn [app]. change (is_word "var" (Leaf (TWord "var"))) with true. rewrite (name_identifier _ P).
    change (is_mark ":" (Leaf (TMark ":"))) with true. cbn match. destruct (c_notnull c) eqn:N.
    - rewrite type_equals. destruct (value_facts c (D eq_refl)) as [_ [_ [_ V]]].
      unfold type_trees. destruct (kt (value (c_type c))); [congruence|]. reflexivity.
    - rewrite app_nil_r, type_alone. reflexivity. }
  destruct ov; exact (K _ _).
Qed.
Lemma param_reads : forall ov c, col_ok c -> read_param (param_trees ov c) = Some (the_param ov c).
Proof. intros ov c C. apply rest_reads; [exact C|]. exact (annos_ok c). Qed.
Lemma rest_sound : forall ov c, col_ok c -> forallb sound (rest_trees ov c) = true.
Proof.
  intros ov c [W [P [I D]]]. unfold rest_trees, type_trees. rewrite !forallb_app. destruct (c_notnull c).
  - destruct (value_facts c (D eq_refl)) as [_ [V _]]. cbn [forallb sound]. rewrite V. now destruct ov.
  - now destruct ov.
Qed.
Lemma rest_uncomma : forall ov c, col_ok c -> uncomma (rest_trees ov c) = true.
Proof.
  intros ov c [W [P [I D]]]. unfold rest_trees, type_trees, uncomma. rewrite !forallb_app. destruct (c_notnull c).
  - destruct (value_facts c (D eq_refl)) as [_ [_ [V _]]]. cbn [forallb]. fold (uncomma (kt (value (c_type c)))). rewrite V. now destruct ov.
  - now destruct ov.
Qed.
Lemma annos_uncomma : forall l, uncomma (flat_map anno_trees l) = true.
Proof.
  induction l as [|a l IH]; [reflexivity|]. unfold uncomma in *. cbn [flat_map]. rewrite forallb_app, IH, andb_true_r.
  unfold anno_trees. now destruct (an_args a).
Qed.
Lemma param_item : forall ov c, col_ok c -> uncomma (param_trees ov c) = true /\ param_trees ov c <> [].
Proof.
  intros ov c C. split.
  - unfold param_trees, uncomma. rewrite forallb_app. fold (uncomma (flat_map anno_trees (annos c))). rewrite annos_uncomma. now apply rest_uncomma.
  - unfold param_trees, rest_trees. intros Q. apply app_eq_nil in Q as [_ Q]. now destruct ov.
Qed.

(** the line of a property *)
Lemma rest_lexes : forall (ov : bool) c tail ts, col_ok c -> lexes tail ts -> plain_start tail = true ->
  lexes ((if ov then "override " else "") ++ "var " ++ kf_name (field c) ++ ": " ++ kf_type (field c) ++
         (if c_notnull c then " = " ++ kf_default (field c) ++ tail else tail)) (flats (rest_trees ov c) ++ ts)%list.
Proof.
  intros ov c tail ts [W [P [I D]]] T S. pose proof (type_lexes c I) as TY. destruct (field_is c I) as [_ [-> [_ [_ ->]]]].
  unfold rest_trees. rewrite !flats_app, <- !app_assoc.
  change (flats [Leaf (TWord "var"); Leaf (TWord (prop c)); Leaf (TMark ":")]) with ([TWord "var"] ++ [TWord (prop c)] ++ [TMark ":"])%list.
  rewrite <- !app_assoc. apply lexes_after; [destruct ov; now apply lexes_given|now destruct ov|].
  apply lexes_after; [now apply lexes_given|reflexivity|].
  apply lexes_before; [now apply lexes_word, identifier_word| |reflexivity].
  apply lexes_after; [now apply lexes_given|reflexivity|].
  destruct (c_notnull c).
  - apply lexes_before; [exact TY| |reflexivity].
    change (flats (Leaf (TMark "=") :: kt (value (c_type c)))) with ([TMark "="] ++ flats (kt (value (c_type c))))%list. rewrite <- app_assoc.
    apply lexes_after; [now apply lexes_given|reflexivity|]. apply lexes_before; [|exact T|exact S].
    apply lexes_given. now apply value_facts, D.
  - apply lexes_before; [exact TY|exact T|exact S].
Qed.
End Columns.
