(** Encoding and decoding of schemas as JSON trees *)
From Coq Require Import String Ascii List NArith Bool Lia Arith.
From Verif.Model Require Import GoString Util Octopus Json.
From Verif.Spec Require Import Order Text OctopusSpec.
From Verif.Proofs Require Import ListLemmas StringLemmas TypeProofs OctopusProofs.
Import ListNotations.
Local Open Scope string_scope.

Lemma dec_members_app : forall {A} (f : A -> string -> json -> option A) l1 l2 acc,
  dec_members f acc (l1 ++ l2)%list =
  match dec_members f acc l1 with Some a => dec_members f a l2 | None => None end.
Proof.
  induction l1 as [|[k j] l1 IH]; simpl; intros; auto. destruct (f acc k j); auto.
Qed.

Lemma dec_list_map : forall {A} (dec : json -> option A) (enc : A -> json) l,
  (forall x, In x l -> dec (enc x) = Some x) -> dec_list dec (map enc l) = Some l.
Proof.
  induction l; simpl; intros; auto. rewrite H by auto. rewrite IHl by auto. reflexivity.
Qed.

Lemma dec_u16_itoa : forall old n, (n < 65536)%N -> dec_u16 old (JNum (itoa n)) = Some n.
Proof.
  intros. unfold dec_u16. rewrite digits_to_N_itoa. apply N.ltb_lt in H. now rewrite H.
Qed.

Lemma dec_one : forall {A} (f : A -> string -> json -> option A) acc k j a,
  f acc k j = Some a -> dec_members f acc [(k, j)] = Some a.
Proof. intros. simpl. now rewrite H. Qed.

(** decoding an omitted-if-empty member into a record whose field is still empty *)
Ltac str_field v := unfold om_str; destruct (String.eqb_spec v ""); [subst; reflexivity|reflexivity].

Lemma dec_enc_ref : forall r, dec_ref (enc_ref r) = Some (Some r).
Proof.
  intros [t c r]. unfold dec_ref, enc_ref, dec_obj. cbn [ref_table ref_column ref_rel].
  assert (E1 : dec_members ref_member (mkRef "" "" "") (om_str "table" t) = Some (mkRef t "" "")) by str_field t.
  assert (E2 : dec_members ref_member (mkRef t "" "") (om_str "column" c) = Some (mkRef t c "")) by str_field c.
  assert (E3 : dec_members ref_member (mkRef t c "") (om_str "relationship" r) = Some (mkRef t c r)) by str_field r.
  rewrite dec_members_app, E1; cbv iota beta; rewrite dec_members_app, E2; cbv iota beta; rewrite E3. reflexivity.
Qed.

Lemma dec_enc_column : forall c, (c_size c < 65536)%N -> (c_scale c < 65536)%N ->
  dec_column (enc_column c) = Some c.
Proof.
  intros [n t d sz sc nn pk uq ai df ou vs rf] Hz Hc. cbn [c_size c_scale] in Hz, Hc.
  unfold dec_column, enc_column, dec_obj, zero_col.
  cbn [c_name c_type c_desc c_size c_scale c_notnull c_pk c_uq c_autoinc c_default c_onupdate c_values c_ref].
  rewrite dec_members_app.
  replace (dec_members col_member (mkCol "" "" "" 0 0 false false false false "" "" [] None)
      [("name", JStr n); ("type", JStr t)])
    with (Some (mkCol n t "" 0 0 false false false false "" "" [] None)) by reflexivity.
  cbv iota beta.
  rewrite dec_members_app.
  replace (dec_members col_member (mkCol n t "" 0 0 false false false false "" "" [] None) (om_str "desc" d))
    with (Some (mkCol n t d 0 0 false false false false "" "" [] None)) by (symmetry; str_field d).
  cbv iota beta.
  rewrite dec_members_app.
  replace (dec_members col_member (mkCol n t d 0 0 false false false false "" "" [] None) (om_num "size" sz))
    with (Some (mkCol n t d sz 0 false false false false "" "" [] None)).
  2:{ symmetry. unfold om_num. destruct (N.eqb_spec sz 0); [subst; reflexivity|].
      apply dec_one.
      change (option_map (fun x => mkCol n t d x 0 false false false false "" "" [] None)
                (dec_u16 0 (JNum (itoa sz))) = Some (mkCol n t d sz 0 false false false false "" "" [] None)).
      rewrite dec_u16_itoa by auto. reflexivity. }
  cbv iota beta.
  rewrite dec_members_app.
  replace (dec_members col_member (mkCol n t d sz 0 false false false false "" "" [] None) (om_num "scale" sc))
    with (Some (mkCol n t d sz sc false false false false "" "" [] None)).
  2:{ symmetry. unfold om_num. destruct (N.eqb_spec sc 0); [subst; reflexivity|].
      apply dec_one.
      change (option_map (fun x => mkCol n t d sz x false false false false "" "" [] None)
                (dec_u16 0 (JNum (itoa sc))) = Some (mkCol n t d sz sc false false false false "" "" [] None)).
      rewrite dec_u16_itoa by auto. reflexivity. }
  cbv iota beta.
  rewrite dec_members_app.
  replace (dec_members col_member (mkCol n t d sz sc false false false false "" "" [] None) (om_bool "notnull" nn))
    with (Some (mkCol n t d sz sc nn false false false "" "" [] None)) by (destruct nn; reflexivity).
  cbv iota beta.
  rewrite dec_members_app.
  replace (dec_members col_member (mkCol n t d sz sc nn false false false "" "" [] None) (om_bool "pk" pk))
    with (Some (mkCol n t d sz sc nn pk false false "" "" [] None)) by (destruct pk; reflexivity).
  cbv iota beta.
  rewrite dec_members_app.
  replace (dec_members col_member (mkCol n t d sz sc nn pk false false "" "" [] None) (om_bool "unique" uq))
    with (Some (mkCol n t d sz sc nn pk uq false "" "" [] None)) by (destruct uq; reflexivity).
  cbv iota beta.
  rewrite dec_members_app.
  replace (dec_members col_member (mkCol n t d sz sc nn pk uq false "" "" [] None) (om_bool "autoinc" ai))
    with (Some (mkCol n t d sz sc nn pk uq ai "" "" [] None)) by (destruct ai; reflexivity).
  cbv iota beta.
  rewrite dec_members_app.
  replace (dec_members col_member (mkCol n t d sz sc nn pk uq ai "" "" [] None) (om_str "default" df))
    with (Some (mkCol n t d sz sc nn pk uq ai df "" [] None)) by (symmetry; str_field df).
  cbv iota beta.
  rewrite dec_members_app.
  replace (dec_members col_member (mkCol n t d sz sc nn pk uq ai df "" [] None) (om_str "onupdate" ou))
    with (Some (mkCol n t d sz sc nn pk uq ai df ou [] None)) by (symmetry; str_field ou).
  cbv iota beta.
  rewrite dec_members_app.
  replace (dec_members col_member (mkCol n t d sz sc nn pk uq ai df ou [] None) (om_arr "values" (map JStr vs)))
    with (Some (mkCol n t d sz sc nn pk uq ai df ou vs None)).
  2:{ symmetry. destruct vs as [|v vs]; [reflexivity|].
      assert (L : dec_list dec_string_elem (map JStr (v :: vs)) = Some (v :: vs))
        by (apply dec_list_map; reflexivity).
      apply dec_one.
      change (option_map (fun x => mkCol n t d sz sc nn pk uq ai df ou x None)
                (dec_list dec_string_elem (map JStr (v :: vs))) = Some (mkCol n t d sz sc nn pk uq ai df ou (v :: vs) None)).
      rewrite L. reflexivity. }
  cbv iota beta.
  destruct rf as [r|]; [|reflexivity].
  apply dec_one.
  change (option_map (fun x => mkCol n t d sz sc nn pk uq ai df ou vs x) (dec_ref (enc_ref r))
          = Some (mkCol n t d sz sc nn pk uq ai df ou vs (Some r))).
  rewrite dec_enc_ref. reflexivity.
Qed.

Lemma dec_enc_index : forall i, dec_index (enc_index i) = Some i.
Proof.
  intros [n cs]. unfold dec_index, enc_index, dec_obj. cbn [ix_name ix_cols].
  destruct cs as [|c cs]; [reflexivity|].
  assert (L : dec_list dec_string_elem (map JStr (c :: cs)) = Some (c :: cs))
    by (apply dec_list_map; reflexivity).
  change (match option_map (fun x => mkIdx n x) (dec_list dec_string_elem (map JStr (c :: cs)))
          with Some a => Some a | None => None end = Some (mkIdx n (c :: cs))).
  rewrite L. reflexivity.
Qed.

Lemma dec_enc_table : forall t,
  (forall c, In c (t_cols t) -> (c_size c < 65536)%N /\ (c_scale c < 65536)%N) ->
  dec_table (enc_table t) = Some t.
Proof.
  intros [n cs d g cl ix] H. cbn [t_cols] in H. unfold dec_table, enc_table, dec_obj.
  cbn [t_name t_cols t_desc t_group t_class t_indices].
  rewrite dec_members_app.
  replace (dec_members tbl_member (mkTable "" [] "" "" "" []) (om_str "name" n))
    with (Some (mkTable n [] "" "" "" [])) by (symmetry; str_field n).
  cbv iota beta.
  rewrite dec_members_app.
  replace (dec_members tbl_member (mkTable n [] "" "" "" []) (om_arr "columns" (map enc_column cs)))
    with (Some (mkTable n cs "" "" "" [])).
  2:{ symmetry. destruct cs as [|c cs]; [reflexivity|].
      assert (L : dec_list dec_column (map enc_column (c :: cs)) = Some (c :: cs)).
      { apply dec_list_map. intros x Hx. apply H in Hx. now apply dec_enc_column. }
      apply dec_one.
      change (option_map (fun x => mkTable n x "" "" "" []) (dec_list dec_column (map enc_column (c :: cs)))
              = Some (mkTable n (c :: cs) "" "" "" [])).
      rewrite L. reflexivity. }
  cbv iota beta.
  rewrite dec_members_app.
  replace (dec_members tbl_member (mkTable n cs "" "" "" []) (om_str "desc" d))
    with (Some (mkTable n cs d "" "" [])) by (symmetry; str_field d).
  cbv iota beta.
  rewrite dec_members_app.
  replace (dec_members tbl_member (mkTable n cs d "" "" []) (om_str "group" g))
    with (Some (mkTable n cs d g "" [])) by (symmetry; str_field g).
  cbv iota beta.
  rewrite dec_members_app.
  replace (dec_members tbl_member (mkTable n cs d g "" []) (om_str "className" cl))
    with (Some (mkTable n cs d g cl [])) by (symmetry; str_field cl).
  cbv iota beta.
  destruct ix as [|i ix]; [reflexivity|].
  assert (L : dec_list dec_index (map enc_index (i :: ix)) = Some (i :: ix)).
  { apply dec_list_map. intros. apply dec_enc_index. }
  apply dec_one.
  change (option_map (fun x => mkTable n cs d g cl x) (dec_list dec_index (map enc_index (i :: ix)))
          = Some (mkTable n cs d g cl (i :: ix))).
  rewrite L. reflexivity.
Qed.

Lemma from_enc_schema : forall s, fits_u16 s -> from_json (enc_schema s) = Some s.
Proof.
  intros [a n v ts] H. unfold fits_u16, columns_of in H. cbn [s_tables] in H.
  unfold from_json, enc_schema, dec_obj. cbn [s_author s_name s_version s_tables].
  rewrite dec_members_app.
  replace (dec_members sch_member (mkSchema "" "" "" []) (om_str "author" a))
    with (Some (mkSchema a "" "" [])) by (symmetry; str_field a).
  cbv iota beta.
  rewrite dec_members_app.
  replace (dec_members sch_member (mkSchema a "" "" []) (om_str "name" n))
    with (Some (mkSchema a n "" [])) by (symmetry; str_field n).
  cbv iota beta.
  rewrite dec_members_app.
  replace (dec_members sch_member (mkSchema a n "" []) (om_str "version" v))
    with (Some (mkSchema a n v [])) by (symmetry; str_field v).
  cbv iota beta.
  destruct ts as [|t ts]; [reflexivity|].
  assert (L : dec_list dec_table (map enc_table (t :: ts)) = Some (t :: ts)).
  { apply dec_list_map. intros x Hx. apply dec_enc_table. intros c Hc. apply H.
    apply in_flat_map. exists x. auto. }
  apply dec_one.
  change (option_map (fun x => mkSchema a n v x) (dec_list dec_table (map enc_table (t :: ts)))
          = Some (mkSchema a n v (t :: ts))).
  rewrite L. reflexivity.
Qed.

Lemma repaired_fits : forall ts ts', Forall2 table_repaired ts ts' ->
  (forall c, In c (flat_map t_cols ts) -> (c_size c < 65536)%N /\ (c_scale c < 65536)%N) ->
  forall c, In c (flat_map t_cols ts') -> (c_size c < 65536)%N /\ (c_scale c < 65536)%N.
Proof.
  induction 1; simpl; intros Hf c Hc; [destruct Hc|].
  apply in_app_or in Hc. destruct Hc as [Hc|Hc].
  - destruct H as [H _]. 
    pose proof (Forall2_in_r _ _ _ _ H Hc) as H1.
    destruct H1 as [c0 [A B]]. specialize (Hf c0 (in_or_app _ _ _ (or_introl A))).
    destruct B as [_ [_ [_ [_ [B1 [B2 _]]]]]]. now rewrite B1, B2.
  - apply IHForall2; auto. intros. apply Hf. apply in_or_app. auto.
Qed.

Lemma to_from_json : forall sortf s j, sorts_tables sortf -> fits_u16 s ->
  to_json sortf s = Some j ->
  exists s', normalize sortf s = (s', None) /\ from_json j = Some s'.
Proof.
  intros sortf s j Hs Hf H. unfold to_json in H.
  destruct (normalize sortf s) as [s' [e|]] eqn:E; [discriminate|]. inversion H; subst.
  exists s'. split; auto. apply from_enc_schema.
  destruct (normalize_ok _ _ _ Hs E) as [[ts [P F]] _]. unfold fits_u16, columns_of.
  eapply repaired_fits; eauto. intros c Hc. apply Hf. unfold columns_of.
  eapply flat_map_perm; eauto.
Qed.
