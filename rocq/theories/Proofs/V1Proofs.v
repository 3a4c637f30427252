(** Octopus v1 files that follow the format are decoded, imported and loaded as described *)
From Coq Require Import String Ascii List NArith Bool Lia Sorting.Permutation.
From Verif.Model Require Import GoString Util Octopus Json Common JsonText Ojson OjsonText Cli.
From Verif.Spec Require Import Text OctopusSpec JsonSpec OjsonSpec CommonSpec CliSpec FormatSpec V1Spec.
From Verif.Proofs Require Import StringLemmas OctopusProofs JsonProofs JsonTextProofs ReadUtf8 FormatProofs OjsonProofs CliLoad CliFormat CliImports.
Import ListNotations.
Local Open Scope string_scope.

Definition v1_ref_names := ["table"; "column"].
Definition v1_ref_view (r : v1_reference) (k : string) : val :=
  if String.eqb k "table" then VS (o_ref_table r) else VS (o_ref_column r).
Lemma v1_ref_step : forall acc k j v, In k v1_ref_names -> ok_str j v ->
  exists acc', v1_ref_member acc k j = Some acc' /\ v1_ref_view acc' k = v /\
    forall k', In k' v1_ref_names -> k' <> k -> v1_ref_view acc' k' = v1_ref_view acc k'.
Proof.
  intros [a b] k j v K (s & -> & ->). each_name K; (eexists; split; [reflexivity|finish_step]).
Qed.
Lemma v1_ref_ext : forall x y, (forall k, In k v1_ref_names -> v1_ref_view x k = v1_ref_view y k) -> x = y.
Proof.
  intros [a1 a2] [b1 b2] H. pose proof (H "table" ltac:(cbn; auto)). pose proof (H "column" ltac:(cbn; auto)). cbv in *. congruence.
Qed.
Lemma v1_dec_reference : forall j r, v1_doc_reference j r -> v1_dec_ref j = Some (Some r).
Proof.
  intros j r (l & -> & S & M1 & M2). unfold v1_dec_ref, dec_obj.
  rewrite (record_decode v1_ref_member v1_ref_view v1_ref_names (fun _ => ok_str) (mkV1Ref "" "") l r v1_ref_step v1_ref_ext S); [reflexivity|].
  intros k K. each_name K; apply is_str; auto.
Qed.

Definition v1_col_names := ["name"; "type"; "description"; "size"; "scale"; "notnull"; "pk"; "unique"; "autoinc"; "default"; "ref"].
Definition v1_col_view (c : v1_column) (k : string) : val :=
  if String.eqb k "name" then VS (o_name c) else if String.eqb k "type" then VS (o_type c)
  else if String.eqb k "description" then VS (o_desc c) else if String.eqb k "size" then VN (o_size c)
  else if String.eqb k "scale" then VN (o_scale c) else if String.eqb k "notnull" then VB (o_notnull c)
  else if String.eqb k "pk" then VB (o_pk c) else if String.eqb k "unique" then VB (o_uq c)
  else if String.eqb k "autoinc" then VB (o_autoinc c) else if String.eqb k "default" then VS (o_default c)
  else V1R (o_ref c).
Definition v1_ok_ref (j : json) (v : val) : Prop := exists r, v1_doc_reference j r /\ v = V1R (Some r).
Definition v1_col_ok (k : string) : json -> val -> Prop :=
  if str_in k ["name"; "type"; "description"; "default"] then ok_str
  else if str_in k ["size"; "scale"] then ok_int
  else if String.eqb k "ref" then v1_ok_ref
  else ok_bool.
Lemma v1_col_step : forall acc k j v, In k v1_col_names -> v1_col_ok k j v ->
  exists acc', v1_col_member acc k j = Some acc' /\ v1_col_view acc' k = v /\
    forall k', In k' v1_col_names -> k' <> k -> v1_col_view acc' k' = v1_col_view acc k'.
Proof.
  intros [n t d sz sc nn pk uq ai df rf] k j v K O. each_name K.
  - destruct O as (s & -> & ->). eexists; split; [reflexivity|finish_step].
  - destruct O as (s & -> & ->). eexists; split; [reflexivity|finish_step].
  - destruct O as (s & -> & ->). eexists; split; [reflexivity|finish_step].
  - destruct O as (s & -> & B & ->). exists (mkV1Col n t d s sc nn pk uq ai df rf). split; [|finish_step].
    change (option_map (fun x => mkV1Col n t d x sc nn pk uq ai df rf) (dec_u16 sz (JNum (itoa s))) = Some (mkV1Col n t d s sc nn pk uq ai df rf)).
    now rewrite (dec_u16_itoa _ _ B).
  - destruct O as (s & -> & B & ->). exists (mkV1Col n t d sz s nn pk uq ai df rf). split; [|finish_step].
    change (option_map (fun x => mkV1Col n t d sz x nn pk uq ai df rf) (dec_u16 sc (JNum (itoa s))) = Some (mkV1Col n t d sz s nn pk uq ai df rf)).
    now rewrite (dec_u16_itoa _ _ B).
  - destruct O as (s & -> & ->). eexists; split; [reflexivity|finish_step].
  - destruct O as (s & -> & ->). eexists; split; [reflexivity|finish_step].
  - destruct O as (s & -> & ->). eexists; split; [reflexivity|finish_step].
  - destruct O as (s & -> & ->). eexists; split; [reflexivity|finish_step].
  - destruct O as (s & -> & ->). eexists; split; [reflexivity|finish_step].
  - destruct O as (r & R & ->). exists (mkV1Col n t d sz sc nn pk uq ai df (Some r)).
    split; [|finish_step]. change (option_map (fun x => mkV1Col n t d sz sc nn pk uq ai df x) (v1_dec_ref j) = Some (mkV1Col n t d sz sc nn pk uq ai df (Some r))).
    now rewrite (v1_dec_reference _ _ R).
Qed.
Lemma v1_col_ext : forall x y, (forall k, In k v1_col_names -> v1_col_view x k = v1_col_view y k) -> x = y.
Proof.
  intros [a1 a2 a3 a4 a5 a6 a7 a8 a9 a10 a11] [b1 b2 b3 b4 b5 b6 b7 b8 b9 b10 b11] H.
  pose proof (H "name" ltac:(in_names)). pose proof (H "type" ltac:(in_names)). pose proof (H "description" ltac:(in_names)).
  pose proof (H "size" ltac:(in_names)). pose proof (H "scale" ltac:(in_names)). pose proof (H "notnull" ltac:(in_names)).
  pose proof (H "pk" ltac:(in_names)). pose proof (H "unique" ltac:(in_names)). pose proof (H "autoinc" ltac:(in_names)).
  pose proof (H "default" ltac:(in_names)). pose proof (H "ref" ltac:(in_names)). clear H. cbv in *. congruence.
Qed.
Lemma v1_dec_doc_column : forall j c, (o_size c < 65536)%N -> (o_scale c < 65536)%N -> v1_doc_column j c -> v1_dec_column j = Some c.
Proof.
  intros j c Z1 Z2 (l & -> & S & M1 & M2 & M3 & M4 & M5 & M6 & M7 & M8 & M9 & M10 & M11).
  unfold v1_dec_column, dec_obj.
  apply (record_decode v1_col_member v1_col_view v1_col_names v1_col_ok (mkV1Col "" "" "" 0 0 false false false false "" None) l c v1_col_step v1_col_ext S).
  intros k K. each_name K; try (apply is_str; auto; fail); try (apply is_int; auto; fail); try (apply is_bool; auto; fail).
  destruct M11 as [(x & r & I & E & R)|[A E]].
  - left. exists x. split; [exact I|]. exists r. split; [exact R|]. cbv [v1_col_view]. cbn. now rewrite E.
  - right. split; [exact A|]. cbv [v1_col_view]. cbn. now rewrite E.
Qed.

Definition v1_tbl_names := ["name"; "columns"; "desc"; "group"; "className"].
Definition v1_tbl_view (t : v1_table) (k : string) : val :=
  if String.eqb k "name" then VS (o_tname t) else if String.eqb k "columns" then V1C (o_cols t)
  else if String.eqb k "desc" then VS (o_tdesc t) else if String.eqb k "group" then VS (o_group t)
  else VS (o_class t).
Definition v1_ok_cols (j : json) (v : val) : Prop := exists a l, j = JArr a /\ dec_list v1_dec_column a = Some l /\ v = V1C l.
Definition v1_tbl_ok (k : string) : json -> val -> Prop := if String.eqb k "columns" then v1_ok_cols else ok_str.
Lemma v1_tbl_step : forall acc k j v, In k v1_tbl_names -> v1_tbl_ok k j v ->
  exists acc', v1_tbl_member acc k j = Some acc' /\ v1_tbl_view acc' k = v /\
    forall k', In k' v1_tbl_names -> k' <> k -> v1_tbl_view acc' k' = v1_tbl_view acc k'.
Proof.
  intros [n cs d g cl] k j v K O. each_name K.
  - destruct O as (s & -> & ->). eexists; split; [reflexivity|finish_step].
  - destruct O as (a & l & -> & F & ->). exists (mkV1Table n l d g cl). split; [|finish_step].
    change (option_map (fun x => mkV1Table n x d g cl) (dec_list v1_dec_column a) = Some (mkV1Table n l d g cl)). now rewrite F.
  - destruct O as (s & -> & ->). eexists; split; [reflexivity|finish_step].
  - destruct O as (s & -> & ->). eexists; split; [reflexivity|finish_step].
  - destruct O as (s & -> & ->). eexists; split; [reflexivity|finish_step].
Qed.
Lemma v1_tbl_ext : forall x y, (forall k, In k v1_tbl_names -> v1_tbl_view x k = v1_tbl_view y k) -> x = y.
Proof.
  intros [a1 a2 a3 a4 a5] [b1 b2 b3 b4 b5] H. pose proof (H "name" ltac:(in_names)). pose proof (H "columns" ltac:(in_names)).
  pose proof (H "desc" ltac:(in_names)). pose proof (H "group" ltac:(in_names)). pose proof (H "className" ltac:(in_names)).
  clear H. cbv in *. congruence.
Qed.
Lemma v1_dec_doc_table : forall j t, (forall c, In c (o_cols t) -> (o_size c < 65536)%N /\ (o_scale c < 65536)%N) ->
  v1_doc_table j t -> v1_dec_table j = Some t.
Proof.
  intros j t Z (l & -> & S & M1 & M2 & M3 & M4 & M5). unfold v1_dec_table, dec_obj.
  apply (record_decode v1_tbl_member v1_tbl_view v1_tbl_names v1_tbl_ok (mkV1Table "" [] "" "" "") l t v1_tbl_step v1_tbl_ext S).
  intros k K. each_name K; try (apply is_str; auto; fail).
  apply (is_list _ v1_doc_column V1C); [|exact M2]. intros a F. exists a, (o_cols t). split; [reflexivity|]. split; [|reflexivity].
  apply (dec_all _ v1_doc_column); [exact F|]. intros j c C D. apply v1_dec_doc_column; [apply Z; exact C|apply Z; exact C|exact D].
Qed.

Definition v1_sch_view (s : v1_schema) (k : string) : val :=
  if String.eqb k "author" then VS (o_author s) else if String.eqb k "name" then VS (o_sname s)
  else if String.eqb k "version" then VS (o_version s) else V1T (o_tables s).
Definition v1_ok_tbls (j : json) (v : val) : Prop := exists a l, j = JArr a /\ dec_list v1_dec_table a = Some l /\ v = V1T l.
Definition v1_sch_ok (k : string) : json -> val -> Prop := if String.eqb k "tables" then v1_ok_tbls else ok_str.
Lemma v1_sch_step : forall acc k j v, In k sch_names -> v1_sch_ok k j v ->
  exists acc', v1_sch_member acc k j = Some acc' /\ v1_sch_view acc' k = v /\
    forall k', In k' sch_names -> k' <> k -> v1_sch_view acc' k' = v1_sch_view acc k'.
Proof.
  intros [a n ve ts] k j v K O. each_name K.
  - destruct O as (s & -> & ->). eexists; split; [reflexivity|finish_step].
  - destruct O as (s & -> & ->). eexists; split; [reflexivity|finish_step].
  - destruct O as (s & -> & ->). eexists; split; [reflexivity|finish_step].
  - destruct O as (x & l & -> & F & ->). exists (mkV1Schema a n ve l). split; [|finish_step].
    change (option_map (fun y => mkV1Schema a n ve y) (dec_list v1_dec_table x) = Some (mkV1Schema a n ve l)). now rewrite F.
Qed.
Lemma v1_sch_ext : forall x y, (forall k, In k sch_names -> v1_sch_view x k = v1_sch_view y k) -> x = y.
Proof.
  intros [a1 a2 a3 a4] [b1 b2 b3 b4] H. pose proof (H "author" ltac:(in_names)). pose proof (H "name" ltac:(in_names)).
  pose proof (H "version" ltac:(in_names)). pose proof (H "tables" ltac:(in_names)). clear H. cbv in *. congruence.
Qed.
Lemma v1_from_document : forall j s, v1_fits_u16 s -> v1_doc j s -> v1_from_json j = Some s.
Proof.
  intros j s Z (l & -> & S & M1 & M2 & M3 & M4). unfold v1_from_json, dec_obj.
  apply (record_decode v1_sch_member v1_sch_view sch_names v1_sch_ok (mkV1Schema "" "" "" []) l s v1_sch_step v1_sch_ext S).
  intros k K. each_name K; try (apply is_str; auto; fail).
  apply (is_list _ v1_doc_table V1T); [|exact M4]. intros a F. exists a, (o_tables s). split; [reflexivity|]. split; [|reflexivity].
  apply (dec_all _ v1_doc_table); [exact F|]. intros j t T D. apply v1_dec_doc_table; [|exact D].
  intros c C. apply Z. unfold v1_columns. apply in_flat_map. eauto.
Qed.

Lemma v1_doc_full : forall j s, v1_doc j s -> full_doc j.
Proof.
  intros j s (l & -> & O & _ & _ & _ & M) l' k v a t E I K V A. injection E as <-.
  assert (k = "tables") as -> by (pose proof (only_names _ _ _ _ O I) as X; destruct X as [<-|[<-|[<-|[<-|[]]]]]; [discriminate K..|reflexivity]).
  destruct O as [N _].
  destruct (list_full _ _ _ _ _ _ _ N M I eq_refl a V t A) as (z & lt & -> & Ot & _ & Mc & _ & _ & _).
  split; [discriminate|]. intros l2 k2 v2 E I2 K2. injection E as <-. intros a2 -> B. pose proof (only_names _ _ _ _ Ot I2) as X. destruct Ot as [Nt _].
  assert (D : k2 = "columns") by (destruct X as [<-|[<-|[<-|[<-|[<-|[]]]]]]; auto; destruct K2 as [K2|K2]; discriminate K2).
  subst k2. destruct (list_full _ _ _ _ _ _ _ Nt Mc I2 eq_refl a2 eq_refl JNull B) as (c & ? & X' & _). discriminate X'.
Qed.

(** ** Strings *)
Definition v1_col_strings (c : v1_column) : list string :=
  ([o_name c; o_type c; o_desc c; o_default c] ++ match o_ref c with Some r => [o_ref_table r; o_ref_column r] | None => [] end)%list.
Definition v1_tbl_strings (t : v1_table) : list string :=
  ([o_tname t; o_tdesc t; o_group t; o_class t] ++ flat_map v1_col_strings (o_cols t))%list.
Definition v1_strings (s : v1_schema) : list string :=
  ([o_author s; o_sname s; o_version s] ++ flat_map v1_tbl_strings (o_tables s))%list.
Lemma v1_ref_utf8 : forall j r, json_utf8 j -> v1_dec_ref j = Some r ->
  strings_utf8 match r with Some r => [o_ref_table r; o_ref_column r] | None => [] end.
Proof.
  intros j r U E.
  assert (G : forall x, dec_obj v1_ref_member (mkV1Ref "" "") j = Some x -> strings_utf8 [o_ref_table x; o_ref_column x]).
  { intros x. apply (dec_obj_keep _ (fun x => strings_utf8 [o_ref_table x; o_ref_column x])); [|cbn; repeat (apply utf8_list_cons; split; [constructor|]); exact utf8_list_nil|exact U].
    intros [a b] k y a' Uy. cbn [o_ref_table o_ref_column]. rewrite !utf8_list_cons. intros (A & B & _). unfold v1_ref_member.
    cbn [o_ref_table o_ref_column]. decoded; cbn [o_ref_table o_ref_column]; rewrite ?utf8_list_cons;
      repeat split; try assumption; try exact utf8_list_nil; refine (dec_str_keep _ _ _ Uy _ D); assumption. }
  destruct j; try discriminate; cbn [v1_dec_ref] in E; [injection E as <-; exact utf8_list_nil|].
  destruct (dec_obj _ _ _) as [x|]; [|discriminate]. injection E as <-. now apply G.
Qed.
Lemma v1_column_utf8 : forall j c, json_utf8 j -> v1_dec_column j = Some c -> strings_utf8 (v1_col_strings c).
Proof.
  intros j c U. unfold v1_dec_column. apply (dec_obj_keep _ (fun c => strings_utf8 (v1_col_strings c))); [| |exact U].
  - intros [n t d sz sc nn pk uq ai df rf] k y c' Uy. unfold v1_col_strings. cbn [o_name o_type o_desc o_default o_ref].
    rewrite !utf8_app, !utf8_list_cons. intros ((A1 & A2 & A3 & A4 & _) & A5). unfold v1_col_member.
    decoded; cbn [o_name o_type o_desc o_default o_ref]; rewrite ?utf8_app, ?utf8_list_cons;
      repeat split; try assumption; try exact utf8_list_nil;
      first [refine (dec_str_keep _ _ _ Uy _ D); assumption|exact (v1_ref_utf8 _ _ Uy D)].
  - cbn. repeat (apply utf8_list_cons; split; [constructor|]). exact utf8_list_nil.
Qed.
Lemma v1_table_utf8 : forall j t, json_utf8 j -> v1_dec_table j = Some t -> strings_utf8 (v1_tbl_strings t).
Proof.
  intros j t U. unfold v1_dec_table. apply (dec_obj_keep _ (fun t => strings_utf8 (v1_tbl_strings t))); [| |exact U].
  - intros [n cs d g cl] k y t' Uy. unfold v1_tbl_strings. cbn [o_tname o_tdesc o_group o_class o_cols].
    rewrite !utf8_app, !utf8_list_cons, !utf8_flat. intros ((A1 & A2 & A3 & A4 & _) & A5). unfold v1_tbl_member.
    decoded; cbn [o_tname o_tdesc o_group o_class o_cols]; rewrite ?utf8_app, ?utf8_list_cons, ?utf8_flat;
      repeat split; try assumption; try exact utf8_list_nil;
      first [refine (dec_str_keep _ _ _ Uy _ D); assumption|exact (dec_arr_keep _ _ _ v1_column_utf8 _ _ Uy D)].
  - cbn. repeat (apply utf8_list_cons; split; [constructor|]). exact utf8_list_nil.
Qed.
Lemma v1_schema_utf8 : forall j s, json_utf8 j -> v1_from_json j = Some s -> strings_utf8 (v1_strings s).
Proof.
  intros j s U E.
  assert (Z : strings_utf8 (v1_strings (mkV1Schema "" "" "" []))).
  { cbn. repeat (apply utf8_list_cons; split; [constructor|]). exact utf8_list_nil. }
  assert (G : dec_obj v1_sch_member (mkV1Schema "" "" "" []) j = Some s -> strings_utf8 (v1_strings s)).
  { apply (dec_obj_keep _ (fun s => strings_utf8 (v1_strings s))); [|exact Z|exact U].
    intros [a n v ts] k y s' Uy. unfold v1_strings. cbn [o_author o_sname o_version o_tables].
    rewrite !utf8_app, !utf8_list_cons, !utf8_flat. intros ((A1 & A2 & A3 & _) & A4). unfold v1_sch_member.
    decoded; cbn [o_author o_sname o_version o_tables]; rewrite ?utf8_app, ?utf8_list_cons, ?utf8_flat;
      repeat split; try assumption; try exact utf8_list_nil;
      first [refine (dec_str_keep _ _ _ Uy _ D); assumption|exact (dec_arr_keep _ _ _ v1_table_utf8 _ _ Uy D)]. }
  unfold v1_from_json in E. destruct j; try exact (G E). injection E as <-. exact Z.
Qed.

Lemma v1_named_ascii : forall t t', v1_named t t' -> utf8 t'.
Proof.
  intros t t' (names & I & _). cbn in I.
  repeat (destruct I as [I|I]; [injection I as <- _; apply utf8_ascii; reflexivity|]). destruct I.
Qed.
Lemma forall2_in : forall A B (R : A -> B -> Prop) l l', Forall2 R l l' -> forall y, In y l' -> exists x, In x l /\ R x y.
Proof.
  induction 1 as [|x y l l' H F IH]; intros z [].
  - subst. exists x. split; [now left|exact H].
  - destruct (IH z H0) as (w & W & H'). exists w. split; [now right|exact H'].
Qed.
Lemma imported_utf8 : forall sortf s s', sorts_v1 sortf -> strings_utf8 (v1_strings s) -> v1_usable s ->
  import_v1 sortf s = Ok s' -> schema_utf8 s'.
Proof.
  intros sortf s s' Hs U K E. destruct (import_v1_keeps _ _ _ Hs E) as (E1 & E2 & E3 & ts & P & F).
  change (strings_utf8 (schema_strings s')). unfold schema_strings, v1_strings in *. rewrite E1, E2, E3.
  rewrite !utf8_app, utf8_flat in *. destruct U as [U1 U2]. split; [exact U1|]. apply Forall_forall. intros t' T'.
  destruct (in_import _ _ _ _ E T') as (C1 & C2 & C3).
  destruct (forall2_in _ _ _ _ _ F t' T') as (t & T & (N1 & N2 & N3 & FC)). apply (Permutation_in t P) in T.
  rewrite Forall_forall in U2. specialize (U2 t T). unfold v1_tbl_strings in U2. rewrite utf8_app, utf8_flat, !utf8_list_cons in U2.
  destruct U2 as ((A1 & A2 & A3 & A4 & _) & A5). unfold table_strings. rewrite N1, N2, N3, C1, C2. cbn [flat_map].
  rewrite !utf8_app, !utf8_list_cons, utf8_flat. split; [repeat split; try assumption; [constructor|exact utf8_list_nil]|].
  split; [|exact utf8_list_nil]. apply Forall_forall. intros c' C'. destruct (C3 c' C') as (D1 & D2 & D3 & D4).
  destruct (forall2_in _ _ _ _ _ FC c' C') as (c & C & (B1 & B2 & _ & _ & _ & _ & _ & B8) & TY).
  rewrite Forall_forall in A5. specialize (A5 c C). unfold v1_col_strings in A5. rewrite utf8_app, !utf8_list_cons in A5.
  destruct A5 as ((X1 & X2 & X3 & X4 & _) & X5). unfold column_strings. rewrite D1, D2, D3, B1, B2.
  rewrite !utf8_app, !utf8_list_cons. assert (KN : v1_known (o_type c)).
  { apply K. unfold v1_columns. apply in_flat_map. eauto. }
  destruct KN as (ty & KN). destruct (proj1 TY ty KN) as [-> _].
  split; [repeat split; try assumption; [exact (v1_named_ascii _ _ KN)|constructor|exact utf8_list_nil]|]. split; [exact utf8_list_nil|].
  destruct (o_ref c) as [r|], (c_ref c') as [r'|]; try contradiction; [|exact utf8_list_nil].
  cbn [ref_strings]. destruct B8 as [-> ->]. rewrite !utf8_list_cons in *. destruct X5 as (Y1 & Y2 & _).
  rewrite (D4 r' eq_refl). repeat split; try assumption; [constructor|exact utf8_list_nil].
Qed.

(** ** The command *)
Lemma imported_distinct : forall sortf s s', sorts_v1 sortf -> v1_distinct s -> import_v1 sortf s = Ok s' -> distinct_table_keys s'.
Proof.
  intros sortf s s' Hs D E. destruct (import_v1_keeps _ _ _ Hs E) as (_ & _ & _ & ts & P & F). unfold distinct_table_keys.
  replace (map (fun t => (t_group t, t_name t)) (s_tables s')) with (map (fun t => (o_group t, o_tname t)) ts).
  - apply (Permutation_NoDup (l := map (fun t => (o_group t, o_tname t)) (o_tables s))); [|exact D]. apply Permutation_map. now symmetry.
  - clear -F. induction F as [|t t' ts l (N & _ & G & _) F IH]; [reflexivity|]. cbn [map]. now rewrite N, G, IH.
Qed.
Lemma v1_canonical : forall t ty ty', v1_named t ty -> canonical ty ty' -> In (ty, ty') v1_types /\ (In ty' integer_types <-> ty = "int" \/ ty = "long").
Proof.
  intros t ty ty' (names & I & _) C.
  assert (G : forall a b, In (ty, a) v1_names -> canonical ty b -> In (ty, b) v1_types /\ (In b integer_types <-> ty = "int" \/ ty = "long")).
  { clear. intros a b I C. cbn in I.
    repeat (destruct I as [I|I]; [injection I as <- _; destruct C as [C|[C D]];
      [cbn in C; repeat (destruct C as [C|C]; [try discriminate C; injection C as <-|]); try destruct C;
         (split; [cbn; repeat (first [left; reflexivity|right])|cbn; intuition discriminate])
      |first [exfalso; apply C; cbn; repeat (first [left; reflexivity|right]); fail
             |subst b; (split; [cbn; repeat (first [left; reflexivity|right])|cbn; intuition discriminate])]]|]).
    destruct I. }
  exact (G names ty' I C).
Qed.
Lemma kept_column : forall c c1 c2, v1_known (o_type c) -> same_column c c1 -> same_type c c1 -> column_repaired c1 c2 ->
  same_column c c2 /\ v1_type_kept c c2.
Proof.
  intros c c1 c2 (t & K) (A1 & A2 & A3 & A4 & A5 & A6 & A7 & A8) TY (C & AI & B1 & B2 & B3 & B4 & B5 & B6 & B7 & B8 & B9 & B10 & B11).
  split; [repeat split; try congruence; now rewrite B11|].
  destruct (proj1 TY t K) as [E AC]. rewrite E in C. destruct (v1_canonical _ _ _ K C) as [I Z].
  exists t. split; [exact K|]. split; [exact I|]. rewrite AI, AC, Z. tauto.
Qed.
Lemma forall2_with : forall A B (P : A -> Prop) (R : A -> B -> Prop) l l', Forall2 R l l' -> (forall x, In x l -> P x) ->
  Forall2 (fun x y => P x /\ R x y) l l'.
Proof.
  induction 1 as [|x y l l' H F IH]; intros G; constructor; [split; [apply G; now left|exact H]|]. apply IH. intros z Z. apply G. now right.
Qed.
Lemma forall2_compose : forall A B C (P : A -> B -> Prop) (Q : B -> C -> Prop) l l' l'', Forall2 P l l' -> Forall2 Q l' l'' ->
  Forall2 (fun x z => exists y, P x y /\ Q y z) l l''.
Proof.
  intros A B C P Q l l' l'' F. revert l''. induction F as [|x y l l' H F IH]; intros l'' G; inversion G; subst; constructor; eauto.
Qed.
Lemma forall2_perm : forall A B (R : A -> B -> Prop) l l' m', Forall2 R l l' -> Permutation l' m' ->
  exists m, Permutation l m /\ Forall2 R m m'.
Proof.
  intros A B R l l' m' F P. revert l F. induction P as [|x l1 l2 P IH|x y l1|l1 l2 l3 P1 IH1 P2 IH2]; intros l F.
  - inversion F; subst. exists []. split; constructor.
  - inversion F as [|a b c d H G]; subst. destruct (IH _ G) as (m & M & K). exists (a :: m). split; constructor; assumption.
  - inversion F as [|a b c d H G]; subst. inversion G as [|a' b' c' d' H' G']; subst. exists (a' :: a :: c'). split; [apply perm_swap|].
    constructor; [assumption|]. constructor; assumption.
  - destruct (IH1 _ F) as (m & M & K). destruct (IH2 _ K) as (m2 & M2 & K2). exists m2. split; [now rewrite M|exact K2].
Qed.
Lemma kept_schema : forall s s1 s2, v1_usable s ->
  (s_author s1 = o_author s /\ s_name s1 = o_sname s /\ s_version s1 = o_version s /\
   exists ts, Permutation ts (o_tables s) /\ Forall2 same_table ts (s_tables s1)) ->
  schema_repaired s1 s2 -> v1_kept s s2.
Proof.
  intros s s1 s2 K (E1 & E2 & E3 & ts & P & F) ((us & Q & G) & _ & _ & D1 & D2 & D3).
  split; [congruence|]. split; [congruence|]. split; [congruence|].
  destruct (forall2_perm _ _ _ _ _ us F) as (ts' & P' & F'); [now symmetry|].
  exists ts'. split; [now rewrite <- P'|].
  assert (W : Forall2 (fun t t1 => (forall c, In c (o_cols t) -> v1_known (o_type c)) /\ same_table t t1) ts' us).
  { apply forall2_with; [exact F'|]. intros t T c C. apply K. unfold v1_columns. apply in_flat_map. exists t. split; [|exact C].
    apply (Permutation_in t P). apply (Permutation_in t (Permutation_sym P')). exact T. }
  pose proof (forall2_compose _ _ _ _ _ _ _ _ W G) as H. eapply forall2_impl_in; [|exact H].
  intros t t2 (t1 & (KT & N & DE & GR & FC) & (RC & R1 & R2 & R3 & _)).
  split; [congruence|]. split; [congruence|]. split; [congruence|].
  pose proof (forall2_compose _ _ _ _ _ _ _ _ (forall2_with _ _ _ _ _ _ FC KT) RC) as H2. eapply forall2_impl_in; [|exact H2].
  intros c c2 (c1 & (KC & S1 & S2) & R). exact (kept_column c c1 c2 KC S1 S2 R).
Qed.

Lemma v1_file_imported : forall w fs v text j s, sorts_tables (w_sort w) -> sorts_v1 (w_sort_v1 w) ->
  v "input" <> None -> v "output" <> None -> fs (given v "input") = Some text -> read_text text = Some j ->
  v1_doc j s -> v1_fits_u16 s -> v1_usable s -> v1_distinct s ->
  exists out, run w fs ImportOjson v = ([(given v "output", out)], Done) /\
    forall fs' name, octopus_name name -> fs' name = Some out -> exists s', load_file w fs' name = Loaded s' /\ v1_kept s s'.
Proof.
  intros w fs v text j s Hs Hv I O F R D Fit K U.
  pose proof (v1_from_document _ _ Fit D) as J. destruct (full_kept _ (v1_doc_full _ _ D)) as (N1 & N2 & N3 & N4).
  assert (E : exists s1, import_v1 (w_sort_v1 w) s = Ok s1).
  { destruct (import_v1 (w_sort_v1 w) s) as [s1|] eqn:E; [eauto|]. exfalso. apply (import_v1_panics _ _ Hv) in E as (c & C & _ & Z).
    now apply (proj2 (K c C)). }
  destruct E as (s1 & E).
  destruct (import_v1_valid _ _ _ _ Hv Hs E (fun c C => proj1 (K c C))) as (s2 & N & _).
  assert (T : to_text (w_sort w) s1 = Some (put_value "" (enc_schema s2))) by (unfold to_text, to_json; now rewrite N).
  exists (put_value "" (enc_schema s2)). split.
  - unfold run. assert (G : required_given ImportOjson v = true).
    { unfold required_given. cbn. destruct (v "input"); [|congruence]. destruct (v "output"); [|congruence]. reflexivity. }
    rewrite G. cbn [action]. unfold import_ojson.
    change (flag_string ImportOjson v "input") with (given v "input"). change (flag_string ImportOjson v "output") with (given v "output"). rewrite F, R, N1, J, N2, N3. cbn [orb]. rewrite E. cbn [with_res].
    unfold save_schema. now rewrite T.
  - intros fs' name On Fn.
    assert (Fit1 : fits_u16 s1) by exact (v1_fits _ _ _ _ (fun l => proj1 (Hv l)) J E).
    assert (U1 : schema_utf8 s1) by exact (imported_utf8 _ _ _ Hv (v1_schema_utf8 _ _ (read_utf8 _ _ R) J) K E).
    destruct (saved_loads w fs' name s1 _ Hs Fit1 U1 (imported_distinct _ _ _ Hv U E) On T Fn) as (s' & Rep & L).
    exists s'. split; [exact L|]. exact (kept_schema _ _ _ K (import_v1_keeps _ _ _ Hv E) Rep).
Qed.

(** a file with every member *)
Definition v1_sample_text : string :=
"{""name"": ""shop"", ""author"": ""me"", ""version"": ""2"", ""tables"": [
  {""desc"": ""who buys"", ""name"": ""user"", ""group"": ""common"", ""className"": ""Person"", ""columns"": [
    {""type"": ""Long"", ""name"": ""id"", ""pk"": true, ""autoinc"": true, ""notnull"": true, ""description"": ""row id""},
    {""name"": ""mail"", ""type"": ""string"", ""size"": 80, ""unique"": true, ""default"": ""-"", ""autoinc"": true},
    {""name"": ""credit"", ""type"": ""number"", ""size"": 10, ""scale"": 2}]},
  {""name"": ""order"", ""columns"": [{""name"": ""user_id"", ""type"": ""bigint"", ""ref"": {""column"": ""id"", ""table"": ""user""}}]}]}".
Definition v1_sample_json : json :=
  JObj [("name", JStr "shop"); ("author", JStr "me"); ("version", JStr "2"); ("tables", JArr [
    JObj [("desc", JStr "who buys"); ("name", JStr "user"); ("group", JStr "common"); ("className", JStr "Person"); ("columns", JArr [
      JObj [("type", JStr "Long"); ("name", JStr "id"); ("pk", JBool true); ("autoinc", JBool true); ("notnull", JBool true); ("description", JStr "row id")];
      JObj [("name", JStr "mail"); ("type", JStr "string"); ("size", JNum "80"); ("unique", JBool true); ("default", JStr "-"); ("autoinc", JBool true)];
      JObj [("name", JStr "credit"); ("type", JStr "number"); ("size", JNum "10"); ("scale", JNum "2")]])];
    JObj [("name", JStr "order"); ("columns", JArr [JObj [("name", JStr "user_id"); ("type", JStr "bigint");
      ("ref", JObj [("column", JStr "id"); ("table", JStr "user")])]])]])].
Definition v1_sample : v1_schema :=
  mkV1Schema "me" "shop" "2" [
    mkV1Table "user" [mkV1Col "id" "Long" "row id" 0 0 true true false true "" None;
                      mkV1Col "mail" "string" "" 80 0 false false true true "-" None;
                      mkV1Col "credit" "number" "" 10 2 false false false false "" None] "who buys" "common" "Person";
    mkV1Table "order" [mkV1Col "user_id" "bigint" "" 0 0 false false false false "" (Some (mkV1Ref "user" "id"))] "" "" ""].
Ltac member := first [not_here|left; here].
Ltac one_column := eexists; split; [reflexivity|]; split; [known|]; do 10 (split; [member|]).
Lemma v1_sample_doc : v1_doc v1_sample_json v1_sample.
Proof.
  eexists. split; [reflexivity|]. split; [known|]. split; [member|]. split; [member|]. split; [member|].
  left. eexists. split; [here|]. constructor; [|constructor; [|constructor]].
  - eexists. split; [reflexivity|]. split; [known|]. split; [member|]. split.
    + left. eexists. split; [here|]. constructor; [|constructor; [|constructor; [|constructor]]]; one_column; right;
        (split; [intros X; cbn in X; repeat (destruct X as [X|X]; [discriminate X|]); exact X|reflexivity]).
    + split; [member|]. split; member.
  - eexists. split; [reflexivity|]. split; [known|]. split; [member|]. split.
    + left. eexists. split; [here|]. constructor; [|constructor]. one_column. left. eexists _, _. split; [here|]. split; [reflexivity|].
      eexists. split; [reflexivity|]. split; [known|]. split; member.
    + split; [member|]. split; member.
Qed.
Lemma v1_sample_ok : read_text v1_sample_text = Some v1_sample_json /\ v1_doc v1_sample_json v1_sample /\ v1_fits_u16 v1_sample /\
  v1_usable v1_sample /\ v1_distinct v1_sample.
Proof.
  split; [vm_compute; reflexivity|]. split; [exact v1_sample_doc|]. split; [|split].
  - intros c C. cbn in C. repeat (destruct C as [<-|C]; [split; reflexivity|]). destruct C.
  - intros c C. cbn in C.
    destruct C as [<-|[<-|[<-|[<-|[]]]]]; (split; [|discriminate]);
      [exists "long"|exists "string"|exists "decimal"|exists "long"]; eexists; (split; [cbn; repeat (first [left; reflexivity|right])|cbn; repeat (first [left; reflexivity|right])]).
  - repeat constructor; cbn; intuition discriminate.
Qed.

(** ** Every loaded schema is UTF-8 text *)
Lemma map_member_utf8 : forall name f j, (forall x, json_utf8 x -> json_utf8 (f x)) -> json_utf8 j -> json_utf8 (map_member name f j).
Proof.
  intros name f j H U. destruct j; try exact U. cbn [map_member]. intros x X. cbn [json_strings] in X.
  apply in_flat_map in X as ([k v] & K & X). apply in_map_iff in K as ([k0 v0] & E & K). injection E as <- E.
  destruct X as [<-|X].
  - apply U. cbn [json_strings]. apply in_flat_map. exists (k0, v0). split; [exact K|now left].
  - cbn [snd] in X. pose proof (utf8_obj _ _ _ U K) as UV. destruct (key_is name k0); subst v; [exact (H _ UV x X)|exact (UV x X)].
Qed.
Lemma drop_nulls_utf8 : forall f j, (forall x, json_utf8 x -> json_utf8 (f x)) -> json_utf8 j -> json_utf8 (drop_nulls f j).
Proof.
  intros f j H U. destruct j; try exact U. cbn [drop_nulls]. intros x X. cbn [json_strings] in X.
  apply in_flat_map in X as (y & Y & X). apply in_map_iff in Y as (z & <- & Z). apply filter_In in Z as [Z _].
  exact (H _ (utf8_arr _ _ U Z) x X).
Qed.
Lemma without_nulls_utf8 : forall j, json_utf8 j -> json_utf8 (without_nulls j).
Proof.
  intros j. unfold without_nulls. apply map_member_utf8. intros x. apply drop_nulls_utf8. intros y Y.
  apply map_member_utf8; [|apply map_member_utf8; [|exact Y]]; intros z; apply drop_nulls_utf8; auto.
Qed.
Lemma load_utf8 : forall w fs name s, sorts_tables (w_sort w) -> load_file w fs name = Loaded s -> schema_utf8 s.
Proof.
  intros w fs name s Hs. unfold load_file. destruct (load_schema_accepts name); [|discriminate].
  destruct (fs name) as [text|]; [|discriminate]. destruct (read_text text) as [j|] eqn:R; [|discriminate].
  destruct (from_json (without_nulls j)) as [s0|] eqn:F; [|discriminate]. destruct (has_null_table j); [discriminate|].
  destruct (has_null_column j); [now destruct (existsb _ _)|]. destruct (has_null_index j); [discriminate|].
  intros E. injection E as <-. apply loaded_utf8; [exact Hs|].
  exact (schema_of_utf8 _ _ (without_nulls_utf8 _ (read_utf8 _ _ R)) F).
Qed.
