(** Documented cells, and what the Excel format loses *)
From Coq Require Import String Ascii List NArith Bool Arith Lia Sorting.Permutation.
From Verif.Model Require Import GoString Util Octopus Common Xlsx.
From Verif.Spec Require Import Text Order OctopusSpec XlsxSpec DiffSpec.
From Verif.Proofs Require Import StringLemmas ListLemmas TypeProofs OctopusProofs XlsxText XlsxProofs XlsxRound.
Import ListNotations.
Local Open Scope string_scope.

(** ** On-update values *)
Lemma column_attributes_read : forall un c, attr_value (c_default c) ->
  let c' := read_column (negb un) (column_row un c) in
  c_autoinc c' = c_autoinc c /\ c_default c' = c_default c /\
  (c_onupdate c = "" -> c_onupdate c' = "") /\ (c_onupdate c <> "" -> c_onupdate c' = c_default c).
Proof.
  intros un c H c'. destruct (attributes_read c H) as [A1 [A2 A3]].
  assert (E : c_autoinc c' = c_autoinc c /\ c_default c' = c_default c /\
              c_onupdate c' = if String.eqb (c_onupdate c) "" then "" else c_default c).
  { subst c'. unfold read_column. destruct (parse_type _) as [[ty sz] sc].
    cbn [c_autoinc c_default c_onupdate].
    change (get_cell_value (column_row un c) 5) with (join ", " (column_attributes c)).
    now rewrite A1, A2, A3. }
  destruct E as [E1 [E2 E3]]. rewrite E3. repeat split; auto.
  - intros ->. reflexivity.
  - intros N. destruct (String.eqb_spec (c_onupdate c) ""); congruence.
Qed.

Definition updated_at : column :=
  mkCol "updated_at" "datetime" "" 0 0 true false false false "" "fn::NOW" [] None.

Lemma onupdate_lost : forall un, valid_column updated_at /\
  attr_value (c_default updated_at) /\ attr_value (c_onupdate updated_at) /\
  c_onupdate (read_column (negb un) (column_row un updated_at)) <> c_onupdate updated_at.
Proof.
  intros un. split; [|split; [|split]].
  - unfold valid_column. cbn. repeat split; try discriminate. intuition.
  - split; [intros []|apply no_ends_nil].
  - split; [no_char|]. exact (ends_snoc "fn::NO" "W" eq_refl).
  - destruct un; vm_compute; discriminate.
Qed.

(** ** References *)
Lemma symbol_reference : forall y t c, t <> "" -> c <> "" -> ~ char_in "." t -> ~ char_in "." c ->
  parse_reference (String (symbol_char y) (t ++ "." ++ c)) =
  Some (mkRef (String (symbol_char y) t) c (symbol_rel y)).
Proof.
  intros y t c T C DT DC. unfold parse_reference. cbn [String.eqb].
  change (String (symbol_char y) (t ++ "." ++ c)) with (String (symbol_char y) t ++ String "." c).
  rewrite split_char_app.
  - rewrite split_char_nochar by exact DC. cbn [String.eqb orb].
    destruct (String.eqb_spec c ""); [congruence|]. destruct y; reflexivity.
  - intros [H|H]; [destruct y; discriminate|contradiction].
Qed.

Definition has_column (s : schema) (t c : string) : Prop :=
  exists tbl col, table_by_name (s_tables s) t = Some tbl /\ column_by_name (t_cols tbl) c = Some col.

Lemma table_by_name_in : forall ts n t, table_by_name ts n = Some t -> In t ts /\ t_name t = n.
Proof.
  induction ts as [|x ts IH]; intros n t H; [discriminate|]. cbn in H.
  destruct (String.eqb_spec (t_name x) n).
  - injection H as <-. split; [now left|assumption].
  - destruct (IH n t H). split; [now right|assumption].
Qed.

Lemma symbol_cell : forall y t c, t <> "" -> c <> "" -> ~ ends_blank c ->
  trim_space (String (symbol_char y) (t ++ "." ++ c)) = String (symbol_char y) (t ++ "." ++ c).
Proof.
  intros y t c T C B. apply trim_id. split.
  - apply starts_app. destruct y; reflexivity.
  - change (String (symbol_char y) (t ++ "." ++ c)) with (String (symbol_char y) t ++ "." ++ c).
    rewrite <- app_assoc_s. now apply not_ends_app.
Qed.

(** the column a row describes refers to whatever its first cell says *)
Lemma read_column_ref : forall nn x r, c_ref (read_column nn (x :: r)) = parse_reference (trim_space x).
Proof.
  intros. unfold read_column. destruct (parse_type _) as [[ty sz] sc]. reflexivity.
Qed.

Lemma symbol_read : forall y t c nn r, t <> "" -> c <> "" -> ~ char_in "." t -> ~ char_in "." c -> ~ ends_blank c ->
  c_ref (read_column nn (String (symbol_char y) (t ++ "." ++ c) :: r)) =
  Some (mkRef (String (symbol_char y) t) c (symbol_rel y)).
Proof.
  intros. rewrite read_column_ref, symbol_cell by assumption. now apply symbol_reference.
Qed.

(** no symbol: found *)
Lemma plain_read : forall t c nn r s, plain_reference (mkRef t c "n:1") -> has_column s t c ->
  exists rf tbl col, c_ref (read_column nn ((t ++ "." ++ c) :: r)) = Some rf /\ ref_rel rf = "n:1" /\
    find_reference s rf = Some (tbl, col) /\ t_name tbl = t /\ c_name col = c.
Proof.
  intros t c nn r s P [tbl [col [H1 H2]]].
  exists (mkRef t c "n:1"), tbl, col. rewrite read_column_ref.
  assert (T : trim_space (t ++ "." ++ c) = t ++ "." ++ c) by exact (trim_id _ (reference_trimmed _ (plain_reference_fit _ P))).
  rewrite T. split; [exact (reference_read _ (plain_reference_fit _ P))|]. split; [reflexivity|].
  unfold find_reference. cbn [ref_table ref_column]. rewrite H1, H2. split; [reflexivity|].
  split; [now apply table_by_name_in in H1|].
  clear - H2. induction (t_cols tbl) as [|x xs IH]; [discriminate|]. cbn in H2.
  destruct (String.eqb_spec (c_name x) c); [congruence|]. auto.
Qed.

(** a symbol: not found, unless a table's own name starts with it *)
Lemma symbol_not_found : forall y t c nn r s, t <> "" -> c <> "" -> ~ char_in "." t -> ~ char_in "." c -> ~ ends_blank c ->
  (forall tbl, In tbl (s_tables s) -> t_name tbl <> String (symbol_char y) t) ->
  exists rf, c_ref (read_column nn (String (symbol_char y) (t ++ "." ++ c) :: r)) = Some rf /\
    find_reference s rf = None.
Proof.
  intros y t c nn r s T C DT DC B N. rewrite symbol_read by assumption.
  eexists. split; [reflexivity|]. unfold find_reference. cbn [ref_table ref_column].
  destruct (table_by_name _ _) as [tbl|] eqn:E; auto. apply table_by_name_in in E as [E1 E2]. destruct (N tbl E1 E2).
Qed.

Definition doc_schema : schema := mkSchema "" "" ""
  [mkTable "group" [mkCol "id" "int64" "" 0 0 true true false true "" "" [] None] "" "" "" []].

Lemma symbol_witness : exists y t c s, has_column s t c /\
  forall nn r, exists rf, c_ref (read_column nn (String (symbol_char y) (t ++ "." ++ c) :: r)) = Some rf /\
    find_reference s rf = None.
Proof.
  exists ManyToOne, "group", "id", doc_schema. split.
  - eexists _, _. split; reflexivity.
  - intros nn r. exists (mkRef ">group" "id" "n:1"). rewrite read_column_ref.
    split; vm_compute; reflexivity.
Qed.

(** ** Documented attribute cells *)

Lemma trim_right_keep : forall a s, a <> "" -> ~ ends_blank a -> trim_right (a ++ s) = a ++ trim_right s.
Proof.
  induction a as [|c a IH]; intros s N B; [congruence|]. cbn [append trim_right].
  destruct a as [|d a].
  - cbn [append]. destruct (is_space c) eqn:E; [|reflexivity].
    destruct B. exists "", c. auto.
  - rewrite IH; [|discriminate|intros X; apply B, ends_blank_cons, X].
    cbn [append String.eqb]. now rewrite andb_false_r.
Qed.

Lemma doc_cell_trim_right : forall w l c, plain_word w -> doc_cell w l c ->
  Forall (fun a => attr_value (doc_attr_value a)) l -> doc_cell w l (trim_right c).
Proof.
  intros w l c W D. induction D as [b Hb|a x y Hx Hy|a x y rest c Hx Hy D IH]; intros F.
  - assert (E : trim_right b = "") by exact (trim_right_blank "" b Hb).
    rewrite E. apply dc_none, blank_nil.
  - inversion F as [|? ? F1 F2]; subst.
    rewrite <- app_assoc_s, trim_right_blank by exact Hy.
    assert (T := doc_text_trimmed w a W F1). destruct T as [_ T].
    rewrite trim_right_id.
    + assert (Dn := dc_one w a x "" Hx blank_nil). now rewrite app_nil_r_s in Dn.
    + apply not_ends_app; auto. destruct a; cbn [doc_attr_text]; try discriminate. apply W.
  - inversion F as [|? ? F1 F2]; subst.
    replace (x ++ doc_attr_text w a ++ y ++ "," ++ c) with ((x ++ doc_attr_text w a ++ y ++ ",") ++ c)
      by (rewrite !app_assoc_s; reflexivity).
    rewrite trim_right_keep.
    + rewrite !app_assoc_s. apply dc_more; auto.
    + destruct x; [|discriminate]. destruct (doc_attr_text w a); [|discriminate]. destruct y; discriminate.
    + rewrite <- !app_assoc_s. apply (ends_snoc _ ","). reflexivity.
Qed.

Lemma doc_cell_trim_left : forall w l c, plain_word w -> doc_cell w l c ->
  Forall (fun a => attr_value (doc_attr_value a)) l -> doc_cell w l (trim_left c).
Proof.
  intros w l c W D F.
  assert (TL : forall a x s, attr_value (doc_attr_value a) -> blank x ->
    trim_left (x ++ doc_attr_text w a ++ s) = "" ++ doc_attr_text w a ++ s).
  { intros a x s V Hx. rewrite trim_left_blank by exact Hx. cbn [append]. apply trim_left_id.
    destruct (doc_text_trimmed w a W V) as [T _].
    assert (NE : doc_attr_text w a <> "") by (destruct a; cbn [doc_attr_text]; try discriminate; apply W).
    destruct (doc_attr_text w a) as [|d r]; [congruence|]. intros [e [z [E B]]]. injection E as -> _.
    apply T. exists e, r. auto. }
  destruct D as [b Hb|a x y Hx Hy|a x y rest c Hx Hy D].
  - apply dc_none. rewrite <- (app_nil_r_s b), trim_left_blank by exact Hb. apply blank_nil.
  - inversion F; subst. rewrite TL by assumption. apply dc_one; auto using blank_nil.
  - inversion F; subst. rewrite TL by assumption. apply dc_more; auto using blank_nil.
Qed.

Lemma doc_cell_trim : forall w l c, plain_word w -> doc_cell w l c ->
  Forall (fun a => attr_value (doc_attr_value a)) l -> doc_cell w l (trim_space c).
Proof.
  intros. unfold trim_space. apply doc_cell_trim_right; auto. now apply doc_cell_trim_left.
Qed.

(** the attributes read from a documented cell *)
Lemma doc_cell_read : forall w l c, w = "autoinc" \/ w = "autoInc" -> doc_cell w l c -> doc_attrs_ok l ->
  let m := parse_attributes (trim_space c) in
  (forall v, In (DDefault v) l -> attr_get m "default" = v) /\
  (forall v, In (DOnUpdate v) l -> attr_get m "onUpdate" = v) /\
  (forall v, In (DClass v) l -> attr_get m "class" = v) /\
  (String.eqb (attr_get m "autoInc") "true" = true <-> In DAutoinc l /\ w = "autoInc").
Proof.
  intros w l c HW D [F [U1 [U2 U3]]] m.
  assert (W : plain_word w).
  { destruct HW as [-> | ->]; [|apply autoInc_word].
    split; [discriminate|]. split; [|split; no_char]. split.
    - apply starts_app. reflexivity.
    - exact (ends_snoc "autoin" "c" eq_refl). }
  assert (I : forall k v, k <> "" -> (In (k, v) m <-> exists a, In a l /\ doc_entry w a = (k, v))).
  { intros k v N. unfold m. apply doc_cell_in; auto. now apply doc_cell_trim. }
  clearbody m.
  assert (NW : w <> "default" /\ w <> "onUpdate" /\ w <> "class")
    by (destruct HW as [-> | ->]; repeat split; discriminate).
  destruct NW as [N1 [N2 N3]]. repeat split.
  - intros v Hv. apply attr_get_unique.
    + apply I; [discriminate|]. exists (DDefault v). auto.
    + intros x Hx. apply I in Hx as [a [Ha E]]; [|discriminate].
      destruct a; cbn [doc_entry] in E; try congruence. injection E as ->. auto.
  - intros v Hv. apply attr_get_unique.
    + apply I; [discriminate|]. exists (DOnUpdate v). auto.
    + intros x Hx. apply I in Hx as [a [Ha E]]; [|discriminate].
      destruct a; cbn [doc_entry] in E; try congruence. injection E as ->. auto.
  - intros v Hv. apply attr_get_unique.
    + apply I; [discriminate|]. exists (DClass v). auto.
    + intros x Hx. apply I in Hx as [a [Ha E]]; [|discriminate].
      destruct a; cbn [doc_entry] in E; try congruence. injection E as ->. auto.
  - apply String.eqb_eq in H. unfold attr_get in H. destruct (alist_find m "autoInc") as [x|] eqn:A; [|discriminate].
    apply alist_find_in in A. apply I in A as [a [Ha E]]; [|discriminate].
    destruct a; cbn [doc_entry] in E; congruence.
  - apply String.eqb_eq in H. unfold attr_get in H. destruct (alist_find m "autoInc") as [x|] eqn:A; [|discriminate].
    apply alist_find_in in A. apply I in A as [a [Ha E]]; [|discriminate].
    destruct a; cbn [doc_entry] in E; congruence.
  - intros [Ha ->]. apply String.eqb_eq. apply attr_get_unique.
    + apply I; [discriminate|]. exists DAutoinc. auto.
    + intros x Hx. apply I in Hx as [a [Hb E]]; [|discriminate].
      destruct a; cbn [doc_entry] in E; congruence.
Qed.

(** a sheet with one table of one column, both with documented attribute cells *)
Lemma doc_sheet_read : forall w g un tname tcell lt cname ty ccell lc,
  w = "autoinc" \/ w = "autoInc" ->
  tname <> "" -> trimmed tname -> cname <> "" -> trimmed cname -> trim_space ty <> "table" ->
  doc_cell w lt tcell -> doc_attrs_ok lt -> doc_cell w lc ccell -> doc_attrs_ok lc ->
  exists t c,
    read_group_sheet g [header_row un; [tname; ""; "table"; ""; ""; tcell; ""]; [""; cname; ty; ""; ""; ccell; ""]]
      = inl [t] /\
    t_name t = tname /\ t_cols t = [c] /\ c_name c = cname /\
    (forall v, In (DClass v) lt -> t_class t = v) /\
    (forall v, In (DDefault v) lc -> c_default c = v) /\
    (forall v, In (DOnUpdate v) lc -> c_onupdate c = v) /\
    (c_autoinc c = true <-> In DAutoinc lc /\ w = "autoInc").
Proof.
  intros w g un tname tcell lt cname ty ccell lc W T1 T2 C1 C2 TY DT OT DC OC.
  destruct (doc_cell_read w lt tcell W DT OT) as [_ [_ [TC _]]].
  destruct (doc_cell_read w lc ccell W DC OC) as [D1 [D2 [_ D4]]].
  unfold read_group_sheet. generalize (String.eqb (trim_space (get_cell_value (header_row un) 4)) "not null").
  intros nn. rewrite !read_rows_cons. unfold cell, get_cell_value. cbn [nth].
  rewrite !(trim_id tname), !(trim_id cname) by assumption.
  change (trim_space "table") with "table". change (trim_space "") with "".
  rewrite String.eqb_refl. destruct (String.eqb_spec tname ""); [congruence|].
  destruct (String.eqb_spec (trim_space ty) "table"); [congruence|].
  destruct (String.eqb_spec cname ""); [congruence|]. cbn [String.eqb].
  rewrite read_rows_nil. cbn [app opt_list].
  eexists _, _. split; [reflexivity|]. unfold add_column, with_cols. cbn [t_name t_cols t_class app].
  split; [reflexivity|]. split; [reflexivity|].
  unfold read_column, get_cell_value. cbn [nth].
  destruct (parse_type (trim_space ty)) as [[ty' sz] sc]. cbn [c_name c_default c_onupdate c_autoinc].
  repeat split; auto; try apply D4; auto. now apply trim_id.
Qed.

Lemma autoinc_unread : exists w lc ccell, w = "autoinc" /\ doc_cell w lc ccell /\ doc_attrs_ok lc /\
  In DAutoinc lc /\
  forall g un, exists t c,
    read_group_sheet g [header_row un; ["user"; ""; "table"; ""; ""; ""; ""]; [""; "id"; "int64"; "P"; "O"; ccell; "unique id"]]
      = inl [t] /\ t_cols t = [c] /\ c_autoinc c = false.
Proof.
  exists "autoinc", [DAutoinc], "autoinc". split; [reflexivity|]. split.
  - exact (dc_one "autoinc" DAutoinc "" "" blank_nil blank_nil).
  - split; [|split; [now left|]].
    + split; [|repeat split; intros v w [H|[]]; discriminate].
      constructor; [|constructor]. split; [intros []|apply no_ends_nil].
    + intros g un. destruct un.
      * eexists _, _. split; [vm_compute; reflexivity|]. split; reflexivity.
      * eexists _, _. split; [vm_compute; reflexivity|]. split; reflexivity.
Qed.

(** ** Losses *)

Lemma read_rows_values : forall g nn rows k ts last r,
  (forall t c, In t (ts ++ opt_list last)%list -> In c (t_cols t) -> c_values c = []) ->
  read_rows g nn k rows ts last = inl r ->
  forall t c, In t r -> In c (t_cols t) -> c_values c = [].
Proof.
  intros g nn. induction rows as [|x rows IH]; intros k ts last r H E.
  - rewrite read_rows_nil in E. injection E as <-. exact H.
  - rewrite read_rows_cons in E.
    destruct (String.eqb (cell x 2) "table").
    { destruct (String.eqb (cell x 0) ""); [discriminate|]. revert E; apply IH.
      intros t c Ht Hc. apply in_app_or in Ht as [Ht|Ht]; [now apply (H t)|].
      destruct Ht as [<-|[]]. destruct Hc. }
    destruct last as [t0|]; [|revert E; now apply IH].
    destruct (String.eqb (cell x 1) ""); [revert E; now apply IH|].
    destruct (String.eqb (cell x 3) "I").
    + revert E; apply IH. intros t c Ht Hc. apply in_app_or in Ht as [Ht|Ht].
      * apply (H t); auto. apply in_or_app. now left.
      * destruct Ht as [<-|[]]. apply (H t0); [apply in_or_app; right; now left|].
        unfold add_index_column in Hc. destruct (index_by_name _ _); exact Hc.
    + revert E; apply IH. intros t c Ht Hc. apply in_app_or in Ht as [Ht|Ht].
      * apply (H t); auto. apply in_or_app. now left.
      * destruct Ht as [<-|[]]. unfold add_column in Hc. cbn [with_cols t_cols] in Hc.
        apply in_app_or in Hc as [Hc|[<-|[]]].
        -- apply (H t0); auto. apply in_or_app. right. now left.
        -- unfold read_column. destruct (parse_type _) as [[ty sz] sc]. reflexivity.
Qed.

Lemma import_values : forall ord wb s, import_xlsx ord wb = inl s ->
  forall c, In c (columns_of s) -> c_values c = [].
Proof.
  intros ord wb s E c Hc. unfold import_xlsx in E.
  destruct (read_sheets wb (ord (group_names wb)) []) as [ts|e] eqn:R; [|discriminate].
  injection E as <-. unfold columns_of in Hc. cbn [s_tables] in Hc.
  apply in_flat_map in Hc as [t [Ht Hc]].
  assert (G : forall gs acc ts, (forall t c, In t acc -> In c (t_cols t) -> c_values c = []) ->
    read_sheets wb gs acc = inl ts -> forall t c, In t ts -> In c (t_cols t) -> c_values c = []).
  { induction gs as [|g gs IH]; intros acc ts0 H E; cbn [read_sheets] in E.
    - injection E as <-. exact H.
    - destruct (read_group_sheet g (group_sheet wb g)) as [x|] eqn:RG; [|discriminate].
      revert E; apply IH. intros t0 c0 Ht0 Hc0. apply in_app_or in Ht0 as [Ht0|Ht0]; [now apply (H t0)|].
      unfold read_group_sheet in RG. destruct (group_sheet wb g) as [|h rows]; [injection RG as <-; destruct Ht0|].
      apply (read_rows_values _ _ _ _ _ _ _) with (t := t0) (2 := RG); auto. intros ? ? []. }
  apply (G (ord (group_names wb)) [] ts) with (t := t); auto. intros ? ? [].
Qed.

Definition one_col_schema (c : column) : schema :=
  mkSchema "me" "db" "1" [mkTable "t" [c] "" "g" "" []].

(** columns that come back different *)
Definition lossy_columns : list column :=
  [ (* the values of an enum *) mkCol "kind" "enum" "" 0 0 true false false false "" "" ["a"; "b"] None;
    (* a size of a type whose name contains digits *) mkCol "n" "int64" "" 20 0 true false false false "" "" [] None;
    (* unique besides primary key *) mkCol "id" "int64" "" 0 0 true true true false "" "" [] None;
    (* a comma in a default value *) mkCol "v" "varchar" "" 10 0 true false false false "a,b" "" [] None;
    (* an on-update value *) updated_at;
    (* a one-to-one relationship *) mkCol "g_id" "int64" "" 0 0 true false false false "" "" [] (Some (mkRef "grp" "id" "1:1")) ].

Lemma one_sheet : forall ord un c, iteration_order ord ->
  export_xlsx (fun _ => true) un (one_col_schema c) =
    Some [("Meta", meta_rows (one_col_schema c)); ("g", group_rows un (one_col_schema c) "g")] /\
  forall ts, read_group_sheet "g" (group_rows un (one_col_schema c) "g") = inl ts ->
  import_xlsx ord [("Meta", meta_rows (one_col_schema c)); ("g", group_rows un (one_col_schema c) "g")]
  = inl (mkSchema "me" "db" "1" ts).
Proof.
  intros ord un c O. split; [reflexivity|]. intros ts R. unfold import_xlsx.
  change (group_names _) with ["g"].
  assert (E : ord ["g"] = ["g"]) by (apply Permutation_length_1_inv, Permutation_sym, O).
  rewrite E. cbn [read_sheets].
  change (group_sheet _ "g") with (group_rows un (one_col_schema c) "g"). rewrite R. reflexivity.
Qed.

Theorem lossy : forall ord un c, iteration_order ord -> In c lossy_columns ->
  valid_schema (one_col_schema c) /\
  exists wb s', export_xlsx (fun _ => true) un (one_col_schema c) = Some wb /\
    import_xlsx ord wb = inl s' /\ s_tables s' <> s_tables (one_col_schema c).
Proof.
  intros ord un c O H. split.
  - intros x Hx. cbn in Hx. destruct Hx as [<-|[]].
    cbn in H. repeat (destruct H as [<-|H]; [unfold valid_column; cbn; intuition (try discriminate; try lia)|]). destruct H.
  - destruct (one_sheet ord un c O) as [E R]. cbn in H.
    repeat (destruct H as [<-|H];
      [eexists _, _; split; [exact E|]; split; [apply R; destruct un; vm_compute; reflexivity|
        destruct un; vm_compute; discriminate]|]).
    destruct H.
Qed.

(** two groups that need the same sheet: nothing is written *)
Lemma clash_common : forall name_ok un s t t',
  In t (s_tables s) -> In t' (s_tables s) -> t_group t = "" -> t_group t' = "Common" ->
  export_xlsx name_ok un s = None.
Proof.
  intros name_ok un s t t' H H' G G'. unfold export_xlsx, add_sheet. cbn [map fst str_in existsb orb app].
  destruct (name_ok "Meta"); cbn [negb]; auto.
  destruct (groups_spec s) as [_ GS].
  assert (I1 : In "" (groups s)) by (apply GS; eauto).
  assert (I2 : In "Common" (groups s)) by (apply GS; eauto).
  assert (ND : NoDup (groups s)) by (apply strictly_increasing_nodup, groups_spec).
  assert (Used : forall gs wb, In "Common" (map fst wb) -> In "" gs \/ In "Common" gs ->
            add_group_sheets name_ok un s gs wb = None).
  { induction gs as [|g gs IH]; intros wb U [J|J]; try destruct J; cbn [add_group_sheets]; unfold add_sheet; cbn [fst].
    - subst g. apply str_in_iff in U. change (sheet_name "") with "Common". now rewrite U.
    - destruct (str_in (sheet_name g) (map fst wb) || negb (name_ok (sheet_name g))); auto. apply IH; auto.
      rewrite map_app. apply in_or_app. now left.
    - subst g. apply str_in_iff in U. change (sheet_name "Common") with "Common". now rewrite U.
    - destruct (str_in (sheet_name g) (map fst wb) || negb (name_ok (sheet_name g))); auto. apply IH; auto.
      rewrite map_app. apply in_or_app. now left. }
  generalize [("Meta", meta_rows s)]. revert I1 I2 ND. generalize (groups s).
  induction l as [|g gs IH]; intros I1 I2 ND wb; [destruct I1|]. cbn [add_group_sheets]. unfold add_sheet. cbn [fst].
  destruct (str_in (sheet_name g) (map fst wb) || negb (name_ok (sheet_name g))); auto.
  inversion ND; subst. destruct I1 as [->|I1], I2 as [E|I2]; try discriminate.
  - apply Used; [rewrite map_app; apply in_or_app; right; now left|now right].
  - subst g. apply Used; [rewrite map_app; apply in_or_app; right; now left|now left].
  - now apply IH.
Qed.
