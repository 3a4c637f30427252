(** Documents that follow the description of the format are decoded as described *)
From Coq Require Import String Ascii List NArith Bool Lia.
From Verif.Model Require Import GoString Util Octopus Json Mysql Ojson Staruml.
From Verif.Spec Require Import Text OctopusSpec FormatSpec.
From Verif.Proofs Require Import StringLemmas JsonProofs.
Import ListNotations.
Local Open Scope string_scope.

Inductive val :=
| VS (s : string) | VN (n : N) | VB (b : bool) | VL (l : list string) | VR (r : option reference)
| VC (l : list column) | VI (l : list index) | VT (l : list table)
| V1R (r : option v1_reference) | V1C (l : list v1_column) | V1T (l : list v1_table)
| VO (o : option string) | VJ (j : json) | VE (l : list (option Staruml.element)).

(** members in any order *)
Section Members.
Context {A : Type} (f : A -> string -> json -> option A) (view : A -> string -> val)
  (names : list string) (ok : string -> json -> val -> Prop).
Hypothesis step : forall acc k j v, In k names -> ok k j v ->
  exists acc', f acc k j = Some acc' /\ view acc' k = v /\ forall k', In k' names -> k' <> k -> view acc' k' = view acc k'.
Lemma members_decode : forall l acc, NoDup (map fst l) ->
  (forall k j, In (k, j) l -> In k names /\ exists v, ok k j v) ->
  exists a, dec_members f acc l = Some a /\
    forall k, In k names -> (forall j v, In (k, j) l -> ok k j v -> view a k = v) /\
                            (~ In k (map fst l) -> view a k = view acc k).
Proof.
  induction l as [|[k0 j0] l IH]; intros acc N G; cbn [dec_members].
  - exists acc. split; [reflexivity|]. intros k K. split; [intros j v []|reflexivity].
  - cbn [map fst] in N. inversion N as [|x y N1 N2]; subst.
    destruct (G k0 j0 (or_introl eq_refl)) as (K0 & v0 & O0).
    destruct (step acc k0 j0 v0 K0 O0) as (acc' & E & V & U). rewrite E.
    destruct (IH acc' N2) as (a & D & W); [intros k j I; apply G; now right|].
    exists a. split; [exact D|]. intros k K. split.
    + intros j v [I|I] O.
      * injection I as <- <-. rewrite (proj2 (W k0 K) N1).
        destruct (step acc k0 j0 v K0 O) as (acc2 & E2 & V2 & _). congruence.
      * now apply (proj1 (W k K) j v).
    + intros NI. cbn [map fst] in NI. rewrite (proj2 (W k K)) by (intros X; apply NI; now right).
      apply U; [exact K|]. intros X. apply NI. now left.
Qed.
End Members.

Definition ok_str (j : json) (v : val) : Prop := exists s, j = JStr s /\ v = VS s.
Definition ok_int (j : json) (v : val) : Prop := exists n, j = JNum (itoa n) /\ (n < 65536)%N /\ v = VN n.
Definition ok_bool (j : json) (v : val) : Prop := exists b, j = JBool b /\ v = VB b.
Definition ok_strs (j : json) (v : val) : Prop := exists a l, j = JArr a /\ Forall2 str_meaning a l /\ v = VL l.

Lemma dec_strs : forall a l, Forall2 str_meaning a l -> dec_list dec_string_elem a = Some l.
Proof.
  induction 1 as [|j s a l E H IH]; cbn [dec_list]; [reflexivity|]. rewrite E. cbn [dec_string_elem]. now rewrite IH.
Qed.
Lemma dec_all : forall {A} (dec : json -> option A) (m : json -> A -> Prop) a l, Forall2 m a l ->
  (forall j x, In x l -> m j x -> dec j = Some x) -> dec_list dec a = Some l.
Proof.
  intros A dec m a l H. induction H as [|j s a l E H IH]; intros G; cbn [dec_list]; [reflexivity|].
  rewrite (G j s (or_introl eq_refl) E). rewrite IH; [reflexivity|]. intros j' x X. apply G. now right.
Qed.

(** the value of a member, or its default *)
Lemma lookup_unique : forall l (k : string) (a b : json), NoDup (map fst l) -> In (k, a) l -> In (k, b) l -> a = b.
Proof.
  induction l as [|[k0 j0] l IH]; intros k a b N A B; [destruct A|]. cbn [map fst] in N. inversion N as [|x y N1 N2]; subst.
  destruct A as [A|A], B as [B|B].
  - congruence.
  - injection A as -> ->. exfalso. apply N1. apply in_map_iff. exists (k, b). auto.
  - injection B as -> ->. exfalso. apply N1. apply in_map_iff. exists (k, a). auto.
  - now apply (IH k).
Qed.
Definition member_is (ok : string -> json -> val -> Prop) (l : list (string * json)) (k : string) (zero v : val) : Prop :=
  (exists j, In (k, j) l /\ ok k j v) \/ absent l k /\ v = zero.
Lemma record_decode : forall {A} (f : A -> string -> json -> option A) (view : A -> string -> val) (names : list string)
  (ok : string -> json -> val -> Prop) (zero : A) l (a : A),
  (forall acc k j v, In k names -> ok k j v ->
     exists acc', f acc k j = Some acc' /\ view acc' k = v /\ forall k', In k' names -> k' <> k -> view acc' k' = view acc k') ->
  (forall x y, (forall k, In k names -> view x k = view y k) -> x = y) ->
  has_only names l -> (forall k, In k names -> member_is ok l k (view zero k) (view a k)) ->
  dec_members f zero l = Some a.
Proof.
  intros A f view names ok zero l a step ext (N & S) M.
  destruct (members_decode f view names ok step l zero N) as (b & D & W).
  - intros k j I. assert (K : In k names) by (apply S; apply in_map_iff; exists (k, j); auto). split; [exact K|].
    destruct (M k K) as [(j' & J & O)|[J _]].
    + rewrite (lookup_unique _ _ _ _ N I J). eauto.
    + exfalso. apply J. apply in_map_iff. exists (k, j). auto.
  - rewrite D. f_equal. apply ext. intros k K. destruct (M k K) as [(j & J & O)|[J E]].
    + exact (proj1 (W k K) j _ J O).
    + rewrite (proj2 (W k K) J). now symmetry.
Qed.
Lemma is_str : forall (ok : string -> json -> val -> Prop) l k x, (forall j v, ok_str j v -> ok k j v) ->
  str_member l k x -> member_is ok l k (VS "") (VS x).
Proof. intros ok l k x H [I|[A ->]]; [left; exists (JStr x); split; [exact I|apply H; exists x; auto]|right; auto]. Qed.
Lemma is_int : forall (ok : string -> json -> val -> Prop) l k x, (forall j v, ok_int j v -> ok k j v) -> (x < 65536)%N ->
  int_member l k x -> member_is ok l k (VN 0) (VN x).
Proof. intros ok l k x H B [I|[A ->]]; [left; exists (JNum (itoa x)); split; [exact I|apply H; exists x; auto]|right; auto]. Qed.
Lemma is_bool : forall (ok : string -> json -> val -> Prop) l k x, (forall j v, ok_bool j v -> ok k j v) ->
  bool_member l k x -> member_is ok l k (VB false) (VB x).
Proof. intros ok l k x H [I|[A ->]]; [left; exists (JBool x); split; [exact I|apply H; exists x; auto]|right; auto]. Qed.
Lemma is_list : forall (ok : string -> json -> val -> Prop) {X} (m : json -> X -> Prop) (vl : list X -> val) l k x,
  (forall a, Forall2 m a x -> ok k (JArr a) (vl x)) ->
  list_member m l k x -> member_is ok l k (vl []) (vl x).
Proof. intros ok X m vl l k x H [(a & I & F)|[A ->]]; [left; exists (JArr a); split; [exact I|now apply H]|right; auto]. Qed.

Ltac each_name K := cbn in K; repeat (destruct K as [K|K]; [subst|]); try contradiction.
Ltac finish_step :=
  split; [reflexivity|];
  let k' := fresh in let K := fresh in let N := fresh in
  intros k' K N; each_name K; first [contradiction|reflexivity].

(** ** References *)
Definition ref_names := ["table"; "column"; "relationship"].
Definition ref_view (r : reference) (k : string) : val :=
  if String.eqb k "table" then VS (ref_table r) else if String.eqb k "column" then VS (ref_column r) else VS (ref_rel r).
Lemma ref_step : forall acc k j v, In k ref_names -> ok_str j v ->
  exists acc', ref_member acc k j = Some acc' /\ ref_view acc' k = v /\
    forall k', In k' ref_names -> k' <> k -> ref_view acc' k' = ref_view acc k'.
Proof.
  intros [a b c] k j v K (s & -> & ->). each_name K; (eexists; split; [reflexivity|finish_step]).
Qed.
Lemma ref_ext : forall x y, (forall k, In k ref_names -> ref_view x k = ref_view y k) -> x = y.
Proof.
  intros [a1 a2 a3] [b1 b2 b3] H. pose proof (H "table" ltac:(cbn; auto)). pose proof (H "column" ltac:(cbn; auto)).
  pose proof (H "relationship" ltac:(cbn; auto)). cbv in *. congruence.
Qed.
Lemma dec_reference : forall j r, doc_reference j r -> dec_ref j = Some (Some r).
Proof.
  intros j r (l & -> & S & M1 & M2 & M3). unfold dec_ref, dec_obj.
  rewrite (record_decode ref_member ref_view ref_names (fun _ => ok_str) (mkRef "" "" "") l r ref_step ref_ext S); [reflexivity|].
  intros k K. each_name K; apply is_str; auto.
Qed.

(** ** Columns *)
Definition col_names := ["name"; "type"; "desc"; "size"; "scale"; "notnull"; "pk"; "unique"; "autoinc"; "default"; "onupdate";
              "values"; "ref"].
Definition col_view (c : column) (k : string) : val :=
  if String.eqb k "name" then VS (c_name c) else if String.eqb k "type" then VS (c_type c)
  else if String.eqb k "desc" then VS (c_desc c) else if String.eqb k "size" then VN (c_size c)
  else if String.eqb k "scale" then VN (c_scale c) else if String.eqb k "notnull" then VB (c_notnull c)
  else if String.eqb k "pk" then VB (c_pk c) else if String.eqb k "unique" then VB (c_uq c)
  else if String.eqb k "autoinc" then VB (c_autoinc c) else if String.eqb k "default" then VS (c_default c)
  else if String.eqb k "onupdate" then VS (c_onupdate c) else if String.eqb k "values" then VL (c_values c)
  else VR (c_ref c).
Definition ok_ref (j : json) (v : val) : Prop := exists r, doc_reference j r /\ v = VR (Some r).
Definition col_ok (k : string) : json -> val -> Prop :=
  if str_in k ["name"; "type"; "desc"; "default"; "onupdate"] then ok_str
  else if str_in k ["size"; "scale"] then ok_int
  else if String.eqb k "values" then ok_strs
  else if String.eqb k "ref" then ok_ref
  else ok_bool.
Lemma col_step : forall acc k j v, In k col_names -> col_ok k j v ->
  exists acc', col_member acc k j = Some acc' /\ col_view acc' k = v /\
    forall k', In k' col_names -> k' <> k -> col_view acc' k' = col_view acc k'.
Proof.
  intros [n t d sz sc nn pk uq ai df ou vs rf] k j v K O. each_name K.
  - destruct O as (s & -> & ->). eexists; split; [reflexivity|finish_step].
  - destruct O as (s & -> & ->). eexists; split; [reflexivity|finish_step].
  - destruct O as (s & -> & ->). eexists; split; [reflexivity|finish_step].
  - destruct O as (s & -> & B & ->). exists (mkCol n t d s sc nn pk uq ai df ou vs rf). split; [|finish_step].
    change (option_map (fun x => mkCol n t d x sc nn pk uq ai df ou vs rf) (dec_u16 sz (JNum (itoa s))) = Some (mkCol n t d s sc nn pk uq ai df ou vs rf)).
    now rewrite (dec_u16_itoa _ _ B).
  - destruct O as (s & -> & B & ->). exists (mkCol n t d sz s nn pk uq ai df ou vs rf). split; [|finish_step].
    change (option_map (fun x => mkCol n t d sz x nn pk uq ai df ou vs rf) (dec_u16 sc (JNum (itoa s))) = Some (mkCol n t d sz s nn pk uq ai df ou vs rf)).
    now rewrite (dec_u16_itoa _ _ B).
  - destruct O as (s & -> & ->). eexists; split; [reflexivity|finish_step].
  - destruct O as (s & -> & ->). eexists; split; [reflexivity|finish_step].
  - destruct O as (s & -> & ->). eexists; split; [reflexivity|finish_step].
  - destruct O as (s & -> & ->). eexists; split; [reflexivity|finish_step].
  - destruct O as (s & -> & ->). eexists; split; [reflexivity|finish_step].
  - destruct O as (s & -> & ->). eexists; split; [reflexivity|finish_step].
  - destruct O as (a & l & -> & F & ->). exists (mkCol n t d sz sc nn pk uq ai df ou l rf).
    split; [|finish_step]. change (option_map (fun x => mkCol n t d sz sc nn pk uq ai df ou x rf) (dec_list dec_string_elem a) = Some (mkCol n t d sz sc nn pk uq ai df ou l rf)).
    now rewrite (dec_strs _ _ F).
  - destruct O as (r & R & ->). exists (mkCol n t d sz sc nn pk uq ai df ou vs (Some r)).
    split; [|finish_step]. change (option_map (fun x => mkCol n t d sz sc nn pk uq ai df ou vs x) (dec_ref j) = Some (mkCol n t d sz sc nn pk uq ai df ou vs (Some r))).
    now rewrite (dec_reference _ _ R).
Qed.
Ltac in_names := cbn; repeat (first [left; reflexivity|right]).
Lemma col_ext : forall x y, (forall k, In k col_names -> col_view x k = col_view y k) -> x = y.
Proof.
  intros [a1 a2 a3 a4 a5 a6 a7 a8 a9 a10 a11 a12 a13] [b1 b2 b3 b4 b5 b6 b7 b8 b9 b10 b11 b12 b13] H.
  pose proof (H "name" ltac:(in_names)). pose proof (H "type" ltac:(in_names)). pose proof (H "desc" ltac:(in_names)).
  pose proof (H "size" ltac:(in_names)). pose proof (H "scale" ltac:(in_names)). pose proof (H "notnull" ltac:(in_names)).
  pose proof (H "pk" ltac:(in_names)). pose proof (H "unique" ltac:(in_names)). pose proof (H "autoinc" ltac:(in_names)).
  pose proof (H "default" ltac:(in_names)). pose proof (H "onupdate" ltac:(in_names)). pose proof (H "values" ltac:(in_names)).
  pose proof (H "ref" ltac:(in_names)). clear H. cbv in *. congruence.
Qed.
Lemma dec_doc_column : forall j c, (c_size c < 65536)%N -> (c_scale c < 65536)%N -> doc_column false j c -> dec_column j = Some c.
Proof.
  intros j c Z1 Z2 (l & -> & S & M1 & M2 & M3 & M4 & M5 & M6 & M7 & M8 & M9 & M10 & M11 & M12 & M13).
  unfold dec_column, dec_obj. apply (record_decode col_member col_view col_names col_ok zero_col l c col_step col_ext S).
  intros k K. each_name K.
  - apply is_str; auto.
  - apply is_str; auto.
  - apply is_str; auto.
  - apply is_int; auto.
  - apply is_int; auto.
  - apply is_bool; auto.
  - apply is_bool; auto.
  - apply is_bool; auto.
  - apply is_bool; auto.
  - apply is_str; auto.
  - apply is_str; auto.
  - apply (is_list _ str_meaning VL); [|exact M12]. intros a F. exists a, (c_values c). auto.
  - destruct M13 as [(x & I & r & E & R)|[A E]].
    + left. exists x. split; [exact I|]. exists r. split; [exact R|]. cbv [col_view]. cbn. now rewrite E.
    + right. split; [exact A|]. cbv [col_view]. cbn. now rewrite E.
Qed.

(** ** Indices, tables, schemas *)
Definition idx_names := ["name"; "columns"].
Definition idx_view (i : index) (k : string) : val := if String.eqb k "name" then VS (ix_name i) else VL (ix_cols i).
Definition idx_ok (k : string) : json -> val -> Prop := if String.eqb k "name" then ok_str else ok_strs.
Lemma idx_step : forall acc k j v, In k idx_names -> idx_ok k j v ->
  exists acc', idx_member acc k j = Some acc' /\ idx_view acc' k = v /\
    forall k', In k' idx_names -> k' <> k -> idx_view acc' k' = idx_view acc k'.
Proof.
  intros [n cs] k j v K O. each_name K.
  - destruct O as (s & -> & ->). eexists; split; [reflexivity|finish_step].
  - destruct O as (a & l & -> & F & ->). exists (mkIdx n l). split; [|finish_step].
    change (option_map (fun x => mkIdx n x) (dec_list dec_string_elem a) = Some (mkIdx n l)). now rewrite (dec_strs _ _ F).
Qed.
Lemma idx_ext : forall x y, (forall k, In k idx_names -> idx_view x k = idx_view y k) -> x = y.
Proof.
  intros [a1 a2] [b1 b2] H. pose proof (H "name" ltac:(in_names)). pose proof (H "columns" ltac:(in_names)). clear H.
  cbv in *. congruence.
Qed.
Lemma dec_doc_index : forall j i, doc_index j i -> dec_index j = Some i.
Proof.
  intros j i (l & -> & S & M1 & M2). unfold dec_index, dec_obj.
  apply (record_decode idx_member idx_view idx_names idx_ok (mkIdx "" []) l i idx_step idx_ext S).
  intros k K. each_name K; [apply is_str; auto|].
  apply (is_list _ str_meaning VL); [|exact M2]. intros a F. exists a, (ix_cols i). auto.
Qed.

Definition tbl_names := ["name"; "columns"; "desc"; "group"; "className"; "indices"].
Definition tbl_view (t : table) (k : string) : val :=
  if String.eqb k "name" then VS (t_name t) else if String.eqb k "columns" then VC (t_cols t)
  else if String.eqb k "desc" then VS (t_desc t) else if String.eqb k "group" then VS (t_group t)
  else if String.eqb k "className" then VS (t_class t) else VI (t_indices t).
Definition ok_cols (j : json) (v : val) : Prop := exists a l, j = JArr a /\ dec_list dec_column a = Some l /\ v = VC l.
Definition ok_idxs (j : json) (v : val) : Prop := exists a l, j = JArr a /\ dec_list dec_index a = Some l /\ v = VI l.
Definition tbl_ok (k : string) : json -> val -> Prop :=
  if String.eqb k "columns" then ok_cols else if String.eqb k "indices" then ok_idxs else ok_str.
Lemma tbl_step : forall acc k j v, In k tbl_names -> tbl_ok k j v ->
  exists acc', tbl_member acc k j = Some acc' /\ tbl_view acc' k = v /\
    forall k', In k' tbl_names -> k' <> k -> tbl_view acc' k' = tbl_view acc k'.
Proof.
  intros [n cs d g cl ix] k j v K O. each_name K.
  - destruct O as (s & -> & ->). eexists; split; [reflexivity|finish_step].
  - destruct O as (a & l & -> & F & ->). exists (mkTable n l d g cl ix). split; [|finish_step].
    change (option_map (fun x => mkTable n x d g cl ix) (dec_list dec_column a) = Some (mkTable n l d g cl ix)). now rewrite F.
  - destruct O as (s & -> & ->). eexists; split; [reflexivity|finish_step].
  - destruct O as (s & -> & ->). eexists; split; [reflexivity|finish_step].
  - destruct O as (s & -> & ->). eexists; split; [reflexivity|finish_step].
  - destruct O as (a & l & -> & F & ->). exists (mkTable n cs d g cl l). split; [|finish_step].
    change (option_map (fun x => mkTable n cs d g cl x) (dec_list dec_index a) = Some (mkTable n cs d g cl l)). now rewrite F.
Qed.
Lemma tbl_ext : forall x y, (forall k, In k tbl_names -> tbl_view x k = tbl_view y k) -> x = y.
Proof.
  intros [a1 a2 a3 a4 a5 a6] [b1 b2 b3 b4 b5 b6] H. pose proof (H "name" ltac:(in_names)). pose proof (H "columns" ltac:(in_names)).
  pose proof (H "desc" ltac:(in_names)). pose proof (H "group" ltac:(in_names)). pose proof (H "className" ltac:(in_names)).
  pose proof (H "indices" ltac:(in_names)). clear H. cbv in *. congruence.
Qed.
Lemma dec_doc_table : forall j t, (forall c, In c (t_cols t) -> (c_size c < 65536)%N /\ (c_scale c < 65536)%N) ->
  doc_table false j t -> dec_table j = Some t.
Proof.
  intros j t Z (l & -> & S & M1 & M2 & M3 & M4 & M5 & M6). unfold dec_table, dec_obj.
  apply (record_decode tbl_member tbl_view tbl_names tbl_ok (mkTable "" [] "" "" "" []) l t tbl_step tbl_ext S).
  intros k K. each_name K; try (apply is_str; auto; fail).
  - apply (is_list _ (doc_column false) VC); [|exact M2]. intros a F. exists a, (t_cols t). split; [reflexivity|]. split; [|reflexivity].
    apply (dec_all _ (doc_column false)); [exact F|]. intros j c C D. apply dec_doc_column; [apply Z; exact C|apply Z; exact C|exact D].
  - apply (is_list _ doc_index VI); [|exact M6]. intros a F. exists a, (t_indices t). split; [reflexivity|]. split; [|reflexivity].
    apply (dec_all _ doc_index); [exact F|]. intros j i _ D. now apply dec_doc_index.
Qed.

Definition sch_names := ["author"; "name"; "version"; "tables"].
Definition sch_view (s : schema) (k : string) : val :=
  if String.eqb k "author" then VS (s_author s) else if String.eqb k "name" then VS (s_name s)
  else if String.eqb k "version" then VS (s_version s) else VT (s_tables s).
Definition ok_tbls (j : json) (v : val) : Prop := exists a l, j = JArr a /\ dec_list dec_table a = Some l /\ v = VT l.
Definition sch_ok (k : string) : json -> val -> Prop := if String.eqb k "tables" then ok_tbls else ok_str.
Lemma sch_step : forall acc k j v, In k sch_names -> sch_ok k j v ->
  exists acc', sch_member acc k j = Some acc' /\ sch_view acc' k = v /\
    forall k', In k' sch_names -> k' <> k -> sch_view acc' k' = sch_view acc k'.
Proof.
  intros [a n ve ts] k j v K O. each_name K.
  - destruct O as (s & -> & ->). eexists; split; [reflexivity|finish_step].
  - destruct O as (s & -> & ->). eexists; split; [reflexivity|finish_step].
  - destruct O as (s & -> & ->). eexists; split; [reflexivity|finish_step].
  - destruct O as (x & l & -> & F & ->). exists (mkSchema a n ve l). split; [|finish_step].
    change (option_map (fun y => mkSchema a n ve y) (dec_list dec_table x) = Some (mkSchema a n ve l)). now rewrite F.
Qed.
Lemma sch_ext : forall x y, (forall k, In k sch_names -> sch_view x k = sch_view y k) -> x = y.
Proof.
  intros [a1 a2 a3 a4] [b1 b2 b3 b4] H. pose proof (H "author" ltac:(in_names)). pose proof (H "name" ltac:(in_names)).
  pose proof (H "version" ltac:(in_names)). pose proof (H "tables" ltac:(in_names)). clear H. cbv in *. congruence.
Qed.
Lemma from_document : forall j s, fits_u16 s -> doc_schema false j s -> from_json j = Some s.
Proof.
  intros j s Z (l & -> & S & M1 & M2 & M3 & M4). unfold from_json, dec_obj.
  apply (record_decode sch_member sch_view sch_names sch_ok (mkSchema "" "" "" []) l s sch_step sch_ext S).
  intros k K. each_name K; try (apply is_str; auto; fail).
  apply (is_list _ (doc_table false) VT); [|exact M4]. intros a F. exists a, (s_tables s). split; [reflexivity|]. split; [|reflexivity].
  apply (dec_all _ (doc_table false)); [exact F|]. intros j t T D. apply dec_doc_table; [|exact D].
  intros c C. apply Z. unfold columns_of. apply in_flat_map. eauto.
Qed.
