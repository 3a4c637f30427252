(** Messages of one version, read by programs made for another one *)
From Coq Require Import String Ascii List NArith ZArith Bool Lia.
From Verif.Model Require Import GoString Util Octopus Common Protobuf.
From Verif.Spec Require Import Text Reading OctopusSpec GraphqlSpec ProtobufSpec WireSpec.
From Verif.Proofs Require Import StringLemmas OjsonProofs ProtobufProofs.
Import ListNotations.
Local Open Scope string_scope.

Lemma table_by_name_in : forall ts n u, NoDup (map t_name ts) -> In u ts -> t_name u = n -> table_by_name ts n = Some u.
Proof.
  induction ts as [|t ts IH]; intros n u D I E; [ destruct I | ]. cbn [table_by_name map] in *. inversion D as [|? ? N D']; subst.
  destruct I as [<-|I]; [ now rewrite String.eqb_refl | ]. destruct (String.eqb_spec (t_name t) (t_name u)) as [E|_]; [ | now apply IH ].
  exfalso. apply N. rewrite E. now apply in_map.
Qed.
Lemma passes_group : forall g t t', t_group t' = t_group t -> passes (get_table_filter g) t' = passes (get_table_filter g) t.
Proof. intros g t t' E. unfold get_table_filter. destruct (String.eqb g ""); [ reflexivity | ]. cbn [passes]. now rewrite E. Qed.

Section Wire.
  Variables camel lc : string -> string.
  Variable o : pb_option.

  Lemma fields_app : forall a b k, pb_fields lc k (a ++ b) = (pb_fields lc k a ++ pb_fields lc (k + Z.of_nat (length a)) b)%list.
  Proof.
    induction a as [|c a IH]; intros b k; cbn [pb_fields app length]; [ now rewrite Z.add_0_r | ]. rewrite IH. do 3 f_equal. lia.
  Qed.
  Lemma relations_app : forall s a b l, pb_relations camel o s (a ++ b) = Ok l ->
    exists l1 l2, pb_relations camel o s a = Ok l1 /\ pb_relations camel o s b = Ok l2 /\ l = (l1 ++ l2)%list.
  Proof.
    intros s a b. induction a as [|c a IH]; intros l H; cbn [pb_relations app] in *; [ exists [], l; auto | ].
    destruct (c_ref c) as [r|]; [ | now apply IH ]. destruct (table_by_name (s_tables s) (ref_table r)); [ | discriminate ].
    destruct (pb_relations camel o s (a ++ b)) as [l0|] eqn:E; [ | discriminate ]. injection H as <-.
    destruct (IH l0 eq_refl) as (l1 & l2 & E1 & E2 & ->). rewrite E1. eexists. exists l2. split; [ reflexivity | ]. auto.
  Qed.
  Lemma tag_app : forall a b start i, pb_tag_relations lc start i (a ++ b) =
    (pb_tag_relations lc start i a ++ pb_tag_relations lc start (i + Z.of_nat (length a)) b)%list.
  Proof.
    induction a as [|[ty rep] a IH]; intros b start i; cbn [pb_tag_relations app length]; [ now rewrite Z.add_0_r | ].
    rewrite IH. do 3 f_equal. lia.
  Qed.

  Variables s s' : schema.
  Hypothesis G : columns_added s s'.

  Lemma named_same : forall t t', t_name t' = t_name t -> t_group t' = t_group t -> pb_message_name camel o t' = pb_message_name camel o t.
  Proof. intros t t' N K. unfold pb_message_name. now rewrite N, K. Qed.
  Lemma relations_grown : forall cs l, pb_relations camel o s cs = Ok l -> pb_relations camel o s' cs = Ok l.
  Proof.
    induction cs as [|c cs IH]; intros l H; cbn [pb_relations] in *; [ exact H | ].
    destruct (c_ref c) as [r|]; [ | now apply IH ]. destruct (table_by_name (s_tables s) (ref_table r)) as [u|] eqn:T; [ | discriminate ].
    destruct (pb_relations camel o s cs) as [l0|] eqn:E; [ | discriminate ]. injection H as <-.
    destruct (target_in _ _ _ (table_by_name_target _ _ _ T)) as [I N].
    destruct (proj2 G u I) as (u' & more & I' & N' & K' & _).
    rewrite (table_by_name_in _ (ref_table r) u' (proj1 G) I') by congruence.
    rewrite (IH l0 eq_refl), (named_same u u' N' K'). reflexivity.
  Qed.

  Lemma no_refs : forall z cs l, pb_relations camel o z cs = Ok l ->
    flat_map (fun c => match c_ref c with Some r => [r] | None => [] end) cs = [] -> l = [].
  Proof.
    intros z. induction cs as [|c cs IH]; intros l H E; cbn [pb_relations flat_map] in *; [ now injection H as <- | ].
    destruct (c_ref c); [ discriminate E | ]. now apply IH.
  Qed.

  Lemma message_grown : forall t t' more m m', t_name t' = t_name t -> t_group t' = t_group t -> t_cols t' = (t_cols t ++ more)%list ->
    (t_cols t' = t_cols t \/ table_refs t = [] \/ (po_decr o = false /\ (Z.of_nat (length (t_cols t')) < po_start o)%Z)) ->
    pb_new_message camel lc o s t = Ok m -> pb_new_message camel lc o s' t' = Ok m' ->
    pm_name m' = pm_name m /\ incl (fields_of m) (fields_of m').
  Proof.
    intros t t' more m m' N K C R M M'. unfold pb_new_message in M, M'. cbv zeta in M, M'.
    destruct (pb_relations camel o s (t_cols t)) as [l|] eqn:E; [ | discriminate M ].
    destruct (pb_relations camel o s' (t_cols t')) as [l'|] eqn:E'; [ | discriminate M' ].
    injection M as <-. injection M' as <-. cbn [pm_name]. split; [ now apply named_same | ].
    apply relations_grown in E. unfold fields_of. cbn [pm_fields pm_relations].
    destruct R as [R|R].
    - rewrite R in *. rewrite E in E'. injection E' as <-. apply incl_refl.
    - assert (F : incl (map (fun x => mkRField false (pf_type x) (pf_name x) (pf_tag x)) (pb_fields lc 1 (t_cols t)))
                       (map (fun x => mkRField false (pf_type x) (pf_name x) (pf_tag x)) (pb_fields lc 1 (t_cols t')))).
      { rewrite C, fields_app, map_app. apply incl_appl, incl_refl. }
      apply incl_app; [ now apply incl_appl | ]. apply incl_appr. destruct R as [R|[D R]].
      + rewrite (no_refs _ _ _ E R). intros x [].
      + rewrite C in E'. destruct (relations_app _ _ _ _ E') as (l1 & l2 & E1 & _ & ->). rewrite E in E1. injection E1 as <-.
        assert (S : forall n c, (Z.of_nat n < po_start o)%Z -> pb_rel_start (po_start o) (po_decr o) (Z.of_nat n) c = po_start o).
        { intros n c L. unfold pb_rel_start. rewrite D. destruct (Z.ltb_spec (po_start o) 0); [ lia | ].
          destruct (Z.leb_spec (po_start o) (Z.of_nat n)); [ lia | reflexivity ]. }
        rewrite !S; [ | exact R | rewrite C, app_length in R; lia ].
        rewrite tag_app, map_app. apply incl_appl, incl_refl.
  Qed.

  Lemma tags_nodup : forall z t m, fits (po_start o) (length (t_cols t)) -> pb_new_message camel lc o z t = Ok m ->
    NoDup (map rf_tag (fields_of m)).
  Proof.
    intros z t m F E. destruct (tags_correct camel lc o z t m F E) as (T1 & T2 & T3). unfold fields_of.
    rewrite map_app, !map_map. cbn [rf_tag]. change (fun x => pf_tag x) with pf_tag. change (fun x => pr_tag x) with pr_tag.
    assert (D : NoDup (map pf_tag (pm_fields m))).
    { rewrite T1. apply FinFun.Injective_map_NoDup; [ intros a b H; lia | apply seq_NoDup ]. }
    clear T1. induction (map pf_tag (pm_fields m)) as [|x l IH]; cbn [app]; [ exact T2 | ]. inversion D as [|? ? X D']; subst.
    constructor.
    - rewrite in_app_iff. intros [I|I]; [ now apply X | ]. now apply (proj2 (T3 x I)); left.
    - apply IH; [ | exact D' ]. intros y I. destruct (T3 y I) as [P Q]. split; [ exact P | ]. intros J. apply Q. now right.
  Qed.
  Lemma by_tag : forall fs f g, NoDup (map rf_tag fs) -> In f fs -> In g fs -> rf_tag g = rf_tag f -> g = f.
  Proof.
    induction fs as [|x fs IH]; intros f g D I J E; [ destruct I | ]. cbn [map] in D. inversion D as [|? ? X D']; subst.
    destruct I as [<-|I], J as [<-|J]; [ reflexivity | | | now apply IH ].
    - exfalso. apply X. rewrite <- E. now apply in_map.
    - exfalso. apply X. rewrite E. now apply in_map.
  Qed.
End Wire.

Lemma generate_items : forall camel lc o s text,
  one_line (po_package o) -> one_line (po_go_package o) ->
  pb_names_ok camel lc (get_prefix (po_prefix o)) (po_remove o) (s_tables s) (filter (passes (po_filter o)) (s_tables s)) ->
  (forall t, In t (s_tables s) -> fits (po_start o) (length (t_cols t))) ->
  pb_generate camel lc o s = Ok text ->
  exists l ms, read_proto text = Some l /\
    Forall2 (fun t m => pb_new_message camel lc o s t = Ok m) (filter (passes (po_filter o)) (s_tables s)) ms /\
    (forall n fs, In (PMessage n fs) l <-> exists m, In m ms /\ n = pm_name m /\ fs = fields_of m).
Proof.
  intros camel lc o s text P G N F H. unfold pb_generate in H. destruct (pb_messages camel lc o s) as [ms|] eqn:E; [|discriminate].
  injection H as <-. unfold pb_messages in E. apply res_map_forall2 in E.
  set (sel := filter (passes (po_filter o)) (s_tables s)) in *.
  assert (S : forall t, In t sel -> In t (s_tables s)) by (intros t I; now apply filter_In in I).
  assert (V : forall t c, In t sel -> In c (t_cols t) -> In (c_type c) octopus_types).
  { intros t c I J. destruct (N t I) as [_ [K _]]. now apply K. }
  assert (IM : all_imports ms = imp (existsb has_date sel)).
  { unfold all_imports. change (ss_new []) with (imp false). rewrite (messages_imports camel lc o s sel ms false V E). apply slice_imp. }
  assert (M : Forall2 (fun t m => printable m) sel ms).
  { revert E. apply forall2_in. intros t m I E. refine (proj2 (message_meaning camel lc o s t m _ _ E)); [ apply F, S, I | ].
    intros u [<-|[]]. now apply N. }
  eexists. exists ms. split; [ | split; [ exact E | ] ].
  - apply text_reads; [exact P|exact G| |].
    + clear -M. induction M as [|t m ts ms A M IH]; constructor; assumption.
    + rewrite IM. intros x. destruct (existsb has_date sel); [intros [<-|[]]; vm_compute; intuition discriminate|intros []].
  - intros n fs. split.
    + intros [I|I]; [ discriminate I | ]. unfold optional in I.
      apply in_app_iff in I as [I|I]; [ destruct (String.eqb _ _); [ destruct I | destruct I as [I|[]]; discriminate I ] | ].
      apply in_app_iff in I as [I|I]; [ destruct (String.eqb _ _); [ destruct I | destruct I as [I|[]]; discriminate I ] | ].
      apply in_app_iff in I as [I|I]; [ apply in_map_iff in I as (x & I & _); discriminate I | ].
      apply in_map_iff in I as (m & I & J). injection I as <- <-. now exists m.
    + intros (m & I & -> & ->). right. apply in_app_iff. right. apply in_app_iff. right. apply in_app_iff. right.
      apply in_map_iff. now exists m.
Qed.

Lemma understood : forall camel lc o g s s' text text',
  po_filter o = get_table_filter g -> one_line (po_package o) -> one_line (po_go_package o) ->
  (forall z, z = s \/ z = s' ->
    pb_names_ok camel lc (get_prefix (po_prefix o)) (po_remove o) (s_tables z) (filter (passes (po_filter o)) (s_tables z)) /\
    forall t, In t (s_tables z) -> fits (po_start o) (length (t_cols t))) ->
  columns_added s s' -> room_left (po_start o) (po_decr o) s s' ->
  pb_generate camel lc o s = Ok text -> pb_generate camel lc o s' = Ok text' ->
  exists l l', read_proto text = Some l /\ read_proto text' = Some l' /\ still_understood l l'.
Proof.
  intros camel lc o g s s' text text' O P Q Z C R T T'.
  destruct (Z s (or_introl eq_refl)) as [N F]. destruct (Z s' (or_intror eq_refl)) as [N' F'].
  destruct (generate_items camel lc o s text P Q N F T) as (l & ms & L & M & A).
  destruct (generate_items camel lc o s' text' P Q N' F' T') as (l' & ms' & L' & M' & A').
  exists l, l'. split; [ exact L | ]. split; [ exact L' | ]. intros n fs I. apply A in I as (m & I & -> & ->).
  assert (X : exists t, In t (filter (passes (po_filter o)) (s_tables s)) /\ pb_new_message camel lc o s t = Ok m).
  { clear -M I. induction M as [|t y ts ys E M IH]; [ destruct I | ]. destruct I as [<-|I]; [ exists t; split; [ now left | exact E ] | ].
    destruct (IH I) as (u & J & K). exists u. split; [ now right | exact K ]. }
  destruct X as (t & J & E). apply filter_In in J as [J B].
  destruct (proj2 C t J) as (t' & more & J' & TN & TG & TC).
  assert (B' : In t' (filter (passes (po_filter o)) (s_tables s'))).
  { apply filter_In. split; [ exact J' | ]. rewrite O in *. now rewrite (passes_group g t t' TG). }
  assert (X : exists m', In m' ms' /\ pb_new_message camel lc o s' t' = Ok m').
  { clear -M' B'. induction M' as [|u y us ys E M IH]; [ destruct B' | ]. destruct B' as [<-|B]; [ exists y; split; [ now left | exact E ] | ].
    destruct (IH B) as (v & K & H). exists v. split; [ now right | exact H ]. }
  destruct X as (m' & K' & E').
  destruct (message_grown camel lc o s s' C t t' more m m' TN TG TC (R t t' J J' TN) E E') as [MN MI].
  exists (fields_of m'). split; [ apply A'; exists m'; rewrite MN; auto | ].
  intros f H. split; [ now apply MI | ]. intros h Hh Eh.
  refine (by_tag (fields_of m') f h _ (MI f H) Hh Eh). exact (tags_nodup camel lc o s' t' m' (F' t' J') E').
Qed.
