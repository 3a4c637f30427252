(** Without repeated members, decoding into what is there is decoding *)
From Coq Require Import String Ascii List NArith Bool Lia.
From Verif.Model Require Import GoString Octopus Json Cli JsonMerge.
From Verif.Spec Require Import FormatSpec MergeSpec.
From Verif.Proofs Require Import StringLemmas ExtrasProofs.
Import ListNotations.
Local Open Scope string_scope.

(** *** Lists *)
Lemma into_fresh : forall A (f : A -> json -> option A) zero l, dec_into f zero [] l = option_map (fun r => (r, [])) (dec_list (f zero) l).
Proof.
  intros A f zero l. induction l as [|j l IH]; [reflexivity|]. cbn [dec_into dec_list hd tl]. destruct (f zero j); [|reflexivity].
  rewrite IH. destruct (dec_list (f zero) l); reflexivity.
Qed.
Lemma slice_fresh : forall A (f : A -> json -> option A) zero j,
  dec_slice f zero no_slice j = option_map (fun r => mkSlice r []) (dec_arr (f zero) j).
Proof.
  intros A f zero j. destruct j as [| | | |l|]; try reflexivity. destruct l as [|x l]; [reflexivity|].
  unfold dec_slice. cbn [no_slice sl_seen sl_hidden app]. rewrite into_fresh. cbn [dec_arr]. destruct (dec_list (f zero) (x :: l)); reflexivity.
Qed.
Lemma strings_fresh : forall j, dec_slice dec_str "" no_slice j = option_map (fun r => mkSlice r []) (dec_arr dec_string_elem j).
Proof. intros j. rewrite slice_fresh. f_equal. Qed.
Lemma ptr_fresh : forall j, dec_ptr (dec_fields ref_member) (mkRef "" "" "") None j = dec_ref j.
Proof. intros []; reflexivity. Qed.

Definition elements (j : json) : list json := match j with JArr l => filter (fun x => negb (is_null x)) l | _ => [] end.
Lemma arr_merge : forall A B C (D : B -> json -> option B) (zero : B) (dec : json -> option A) (p : json -> json) (v : B -> A) (q : B -> C) (q' : json -> C) j,
  (forall x, element j x -> is_null x = false -> option_map (fun b => (v b, q b)) (D zero x) = option_map (fun a => (a, q' x)) (dec (p x))) ->
  option_map (fun s => (map v (present (sl_seen s)), some_nil (sl_seen s), map q (present (sl_seen s)))) (dec_slice (dec_ptr D zero) None no_slice j)
  = option_map (fun cs => (cs, some_element is_null j, map q' (elements j))) (dec_arr dec (drop_nulls p j)).
Proof.
  intros A B C D zero dec p v q q' j H. rewrite slice_fresh. destruct j as [| | | |l|]; try reflexivity.
  cbn [dec_arr drop_nulls some_element elements].
  assert (G : forall x, In x l -> is_null x = false -> option_map (fun b => (v b, q b)) (D zero x) = option_map (fun a => (a, q' x)) (dec (p x))).
  { intros x I. apply H. exists l. split; [reflexivity | exact I]. }
  clear H. induction l as [|x l IH]; [reflexivity|]. specialize (IH (fun y I => G y (or_intror I))).
  cbn [dec_list filter existsb]. destruct (is_null x) eqn:N.
  - destruct x; try discriminate. cbn [dec_ptr negb orb].
    destruct (dec_list (dec_ptr D zero None) l) as [r|]; cbn [option_map sl_seen] in *;
      destruct (dec_list dec (map p (filter (fun x => negb (is_null x)) l))) as [cs|]; cbn [option_map] in *; try discriminate; [|reflexivity].
    injection IH as E1 E2 E3. cbn [present flat_map app]. f_equal. f_equal; [f_equal|]; assumption.
  - specialize (G x (or_introl eq_refl) N). cbn [negb map dec_list orb].
    assert (DP : dec_ptr D zero None x = option_map Some (D zero x)) by (destruct x; [discriminate | reflexivity ..]). rewrite DP.
    destruct (D zero x) as [b|]; destruct (dec (p x)) as [a|]; cbn [option_map] in *; try discriminate; [|reflexivity].
    injection G as E1 E2.
    destruct (dec_list (dec_ptr D zero None) l) as [r|]; cbn [option_map sl_seen] in *;
      destruct (dec_list dec (map p (filter (fun x => negb (is_null x)) l))) as [cs|]; cbn [option_map] in *; try discriminate; [|reflexivity].
    injection IH as F1 F2 F3. change (present (Some b :: r)) with (b :: present r). cbn [map some_nil existsb]. rewrite E1, E2.
    f_equal. f_equal; [f_equal; [f_equal|]|f_equal]; assumption.
Qed.

(** *** How often a name occurs *)
Definition times (n : string) (l : list (string * json)) : nat := List.length (filter (fun kv => String.eqb n (to_lower (fst kv))) l).
Lemma times_cons : forall n k v l, times n ((k, v) :: l) = if String.eqb n (to_lower k) then S (times n l) else times n l.
Proof. intros n k v l. unfold times. cbn [filter fst]. destruct (String.eqb n (to_lower k)); reflexivity. Qed.

(** *** Columns *)
Lemma col_values : forall c v k, to_lower k = "values" -> col_member c k v = option_map (with_values c) (dec_arr dec_string_elem v).
Proof. intros [] v k E. unfold col_member. rewrite !key_eq by reflexivity. rewrite E. reflexivity. Qed.
Lemma col_ref : forall c v k, to_lower k = "ref" -> col_member c k v = option_map (with_ref c) (dec_ref v).
Proof. intros [] v k E. unfold col_member. rewrite !key_eq by reflexivity. rewrite E. reflexivity. Qed.
Lemma col_keeps : forall c k v c', col_member c k v = Some c' ->
  (String.eqb "values" (to_lower k) = false -> c_values c' = c_values c) /\ (String.eqb "ref" (to_lower k) = false -> c_ref c' = c_ref c).
Proof.
  intros [] k v c' H. unfold col_member in H. rewrite !key_eq in H by reflexivity. rewrite (String.eqb_sym "values"), (String.eqb_sym "ref").
  repeat match type of H with (if ?b then _ else _) = _ => destruct b eqn:? end;
    try (match type of H with option_map _ ?o = Some _ => destruct o; [|discriminate] end); cbn [option_map] in H; injection H as <-;
    split; intros; try reflexivity; discriminate.
Qed.

Lemma col_merge : forall l c h, times "values" l <= 1 -> times "ref" l <= 1 ->
  (0 < times "values" l -> c_values c = [] /\ h = []) -> (0 < times "ref" l -> c_ref c = None) ->
  option_map fst (dec_members gcol_member (c, h) l) = dec_members col_member c l.
Proof.
  induction l as [|[k v] l IH]; intros c h TV TR ZV ZR; [reflexivity|]. rewrite times_cons in TV, TR, ZV, ZR.
  cbn [dec_members]. unfold gcol_member at 1.
  change (key_is "values" k) with (String.eqb "values" (to_lower k)). change (key_is "ref" k) with (String.eqb "ref" (to_lower k)).
  destruct (String.eqb "values" (to_lower k)) eqn:EV.
  - apply String.eqb_eq in EV. symmetry in EV. rewrite (col_values c v k EV). rewrite EV in TR, ZR. cbn in TR, ZR.
    destruct ZV as [V ->]; [lia|]. rewrite V. change (mkSlice (@nil string) []) with (@no_slice string). rewrite strings_fresh.
    destruct (dec_arr dec_string_elem v) as [vs|]; cbn [option_map sl_seen sl_hidden]; [|reflexivity].
    apply IH; [lia | exact TR | lia |]. intros P. destruct c; cbn in *. apply ZR. exact P.
  - destruct (String.eqb "ref" (to_lower k)) eqn:ER.
    + apply String.eqb_eq in ER. symmetry in ER. rewrite (col_ref c v k ER). rewrite ZR; [|lia]. rewrite ptr_fresh.
      destruct (dec_ref v) as [r|]; cbn [option_map]; [|reflexivity].
      apply IH; [exact TV | lia | | lia]. intros P. destruct (ZV P) as [V X]. destruct c; cbn in *. split; assumption.
    + destruct (col_member c k v) as [c'|] eqn:M; cbn [option_map]; [|reflexivity]. destruct (col_keeps _ _ _ _ M) as [KV KR].
      apply IH; [exact TV | exact TR | |]; intros P.
      * destruct (ZV P) as [V X]. split; [rewrite KV; [exact V | exact EV] | exact X].
      * rewrite KR; [apply ZR; exact P | exact ER].
Qed.
Lemma column_merge : forall j, column_once j -> option_map fst (dec_fields gcol_member zero_gcol j) = dec_column j.
Proof.
  intros j [V R]. destruct j as [| | | | |l]; try reflexivity. unfold dec_column, dec_fields, dec_obj, zero_gcol.
  apply col_merge; [exact (V l eq_refl) | exact (R l eq_refl) | intros _; split; reflexivity | reflexivity].
Qed.

(** *** Indices *)
Lemma idx_merge : forall l i h, times "columns" l <= 1 -> (0 < times "columns" l -> ix_cols i = [] /\ h = []) ->
  option_map fst (dec_members gidx_member (i, h) l) = dec_members idx_member i l.
Proof.
  induction l as [|[k v] l IH]; intros i h T Z; [reflexivity|]. rewrite times_cons in T, Z.
  cbn [dec_members]. unfold gidx_member at 1. unfold idx_member at 2. change (key_is "columns" k) with (String.eqb "columns" (to_lower k)).
  destruct (String.eqb "columns" (to_lower k)) eqn:E.
  - assert (N : key_is "name" k = false) by (rewrite key_eq by reflexivity; apply String.eqb_eq in E; rewrite <- E; reflexivity). rewrite N.
    destruct Z as [V ->]; [lia|]. rewrite V. change (mkSlice (@nil string) []) with (@no_slice string). rewrite strings_fresh.
    destruct (dec_arr dec_string_elem v) as [vs|]; cbn [option_map sl_seen sl_hidden]; [|reflexivity]. apply IH; [lia | lia].
  - unfold idx_member at 1. change (key_is "columns" k) with (String.eqb "columns" (to_lower k)). rewrite E.
    destruct (key_is "name" k); [|apply IH; assumption].
    destruct (dec_str (ix_name i) v) as [x|]; cbn [option_map]; [|reflexivity]. apply IH; assumption.
Qed.
Lemma index_merge : forall j, once "columns" j -> option_map fst (dec_fields gidx_member zero_gidx j) = dec_index j.
Proof.
  intros j O. destruct j as [| | | | |l]; try reflexivity. unfold dec_index, dec_fields, dec_obj, zero_gidx.
  apply idx_merge; [exact (O l eq_refl) | intros _; split; reflexivity].
Qed.

(** *** Tables *)
Definition table_view (g : gtable) : table * (bool * bool) := (seen_table g, (some_nil (sl_seen (g_cols g)), some_nil (sl_seen (g_idx g)))).
Definition with_cols (t : table) (cs : list column) : table := let '(mkTable n _ d g cl ix) := t in mkTable n cs d g cl ix.
Definition with_idx (t : table) (ix : list index) : table := let '(mkTable n cs d g cl _) := t in mkTable n cs d g cl ix.
Lemma tbl_columns : forall t v k, to_lower k = "columns" -> tbl_member t k v = option_map (with_cols t) (dec_arr dec_column v).
Proof.
  intros [] v k E. unfold tbl_member. change (key_is "className" k) with (key_is "classname" k). rewrite !key_eq by reflexivity. rewrite E. reflexivity.
Qed.
Lemma tbl_indices : forall t v k, to_lower k = "indices" -> tbl_member t k v = option_map (with_idx t) (dec_arr dec_index v).
Proof.
  intros [] v k E. unfold tbl_member. change (key_is "className" k) with (key_is "classname" k). rewrite !key_eq by reflexivity. rewrite E. reflexivity.
Qed.
Lemma tbl_scalar : forall k v, String.eqb "columns" (to_lower k) = false -> String.eqb "indices" (to_lower k) = false ->
  forall g, option_map table_view (option_map (fun t => mkGTable t (g_cols g) (g_idx g)) (tbl_member (g_rest g) k v))
    = option_map (fun t => (t, snd (table_view g))) (tbl_member (seen_table g) k v).
Proof.
  intros k v C I [[] cs ix]. unfold table_view, seen_table. cbn [g_rest g_cols g_idx snd]. unfold tbl_member.
  change (key_is "columns" k) with (String.eqb "columns" (to_lower k)). change (key_is "indices" k) with (String.eqb "indices" (to_lower k)). rewrite C, I.
  repeat match goal with |- context [if ?b then _ else _] => destruct b end;
    try (match goal with |- context [dec_str ?a ?b] => destruct (dec_str a b) end); reflexivity.
Qed.

Definition col_flag (b : bool) (kv : string * json) : bool := let '(k, v) := kv in if key_is "columns" k then some_element is_null v else b.
Definition idx_flag (b : bool) (kv : string * json) : bool := let '(k, v) := kv in if key_is "indices" k then some_element is_null v else b.
Lemma tbl_merge : forall l g, times "columns" l <= 1 -> times "indices" l <= 1 ->
  (0 < times "columns" l -> g_cols g = no_slice) -> (0 < times "indices" l -> g_idx g = no_slice) ->
  (forall k v c, In (k, v) l -> to_lower k = "columns" -> element v c -> column_once c) ->
  (forall k v i, In (k, v) l -> to_lower k = "indices" -> element v i -> once "columns" i) ->
  option_map table_view (dec_members gtbl_member g l)
  = option_map (fun t => (t, (fold_left col_flag l (some_nil (sl_seen (g_cols g))), fold_left idx_flag l (some_nil (sl_seen (g_idx g))))))
      (dec_members (fun t k v => tbl_member t k (table_values k v)) (seen_table g) l).
Proof.
  induction l as [|[k v] l IH]; intros g TC TI ZC ZI OC OI; [reflexivity|]. rewrite times_cons in TC, TI, ZC, ZI.
  assert (OC' := fun k v c I => OC k v c (or_intror I)). assert (OI' := fun k v i I => OI k v i (or_intror I)).
  cbn [dec_members fold_left]. unfold gtbl_member at 1. unfold table_values at 1. unfold col_flag at 2, idx_flag at 2.
  change (key_is "columns" k) with (String.eqb "columns" (to_lower k)). change (key_is "indices" k) with (String.eqb "indices" (to_lower k)).
  destruct (String.eqb "columns" (to_lower k)) eqn:EC.
  - apply String.eqb_eq in EC. symmetry in EC. rewrite EC in TI, ZI. cbn [String.eqb Ascii.eqb Bool.eqb] in TI, ZI.
    assert (EI : String.eqb "indices" (to_lower k) = false) by (rewrite EC; reflexivity). rewrite EI.
    rewrite (tbl_columns _ _ k EC). rewrite ZC by lia.
    pose proof (arr_merge _ _ unit (dec_fields gcol_member) zero_gcol dec_column same fst (fun _ => tt) (fun _ => tt) v) as M.
    assert (P : forall x, element v x -> is_null x = false ->
      option_map (fun b : gcol => (fst b, tt)) (dec_fields gcol_member zero_gcol x) = option_map (fun a => (a, tt)) (dec_column (same x))).
    { intros x X _. unfold same. rewrite <- (column_merge x (OC k v x (or_introl eq_refl) EC X)). destruct (dec_fields gcol_member zero_gcol x); reflexivity. }
    specialize (M P). clear P.
    destruct (dec_slice (dec_ptr (dec_fields gcol_member) zero_gcol) None no_slice v) as [s|];
      destruct (dec_arr dec_column (drop_nulls same v)) as [cs|]; cbn [option_map] in M |- *; try discriminate; [|reflexivity].
    injection M as M1 M2 _.
    rewrite (IH (mkGTable (g_rest g) s (g_idx g)) ltac:(lia) TI ltac:(lia) ZI OC' OI'). cbn [g_cols g_idx]. rewrite M2.
    assert (S : seen_table (mkGTable (g_rest g) s (g_idx g)) = with_cols (seen_table g) cs)
      by (unfold seen_table, with_cols; cbn [g_rest g_cols g_idx]; destruct (g_rest g); f_equal; exact M1).
    rewrite S. reflexivity.
  - destruct (String.eqb "indices" (to_lower k)) eqn:EI.
    + apply String.eqb_eq in EI. symmetry in EI.
      rewrite (tbl_indices _ _ k EI). rewrite ZI by lia.
      pose proof (arr_merge _ _ unit (dec_fields gidx_member) zero_gidx dec_index same fst (fun _ => tt) (fun _ => tt) v) as M.
      assert (P : forall x, element v x -> is_null x = false ->
        option_map (fun b : gidx => (fst b, tt)) (dec_fields gidx_member zero_gidx x) = option_map (fun a => (a, tt)) (dec_index (same x))).
      { intros x X _. unfold same. rewrite <- (index_merge x (OI k v x (or_introl eq_refl) EI X)). destruct (dec_fields gidx_member zero_gidx x); reflexivity. }
      specialize (M P). clear P.
      destruct (dec_slice (dec_ptr (dec_fields gidx_member) zero_gidx) None no_slice v) as [s|];
        destruct (dec_arr dec_index (drop_nulls same v)) as [ix|]; cbn [option_map] in M |- *; try discriminate; [|reflexivity].
      injection M as M1 M2 _.
      rewrite (IH (mkGTable (g_rest g) (g_cols g) s) TC ltac:(lia) ZC ltac:(lia) OC' OI'). cbn [g_cols g_idx]. rewrite M2.
      assert (S : seen_table (mkGTable (g_rest g) (g_cols g) s) = with_idx (seen_table g) ix)
        by (unfold seen_table, with_idx; cbn [g_rest g_cols g_idx]; destruct (g_rest g); f_equal; exact M1).
      rewrite S. reflexivity.
    + pose proof (tbl_scalar k v EC EI g) as M.
      destruct (tbl_member (g_rest g) k v) as [t|]; destruct (tbl_member (seen_table g) k v) as [t'|]; cbn [option_map] in M |- *; try discriminate; [|reflexivity].
      injection M as M1. rewrite (IH (mkGTable t (g_cols g) (g_idx g)) TC TI ZC ZI OC' OI'). cbn [g_cols g_idx]. f_equal. rewrite M1. reflexivity.
Qed.
Lemma table_merge : forall j, table_once j ->
  option_map (fun g => (seen_table g, snd (table_view g))) (dec_fields gtbl_member zero_gtable j)
  = option_map (fun t => (t, (last_member "columns" (some_element is_null) j, last_member "indices" (some_element is_null) j))) (dec_table (inner_table j)).
Proof.
  intros j (C & I & OC & OI). destruct j as [| | | | |l]; try reflexivity. rewrite inner_members.
  change (fun g => (seen_table g, snd (table_view g))) with table_view. unfold dec_fields, dec_obj.
  apply (tbl_merge l zero_gtable).
  - exact (C l eq_refl).
  - exact (I l eq_refl).
  - reflexivity.
  - reflexivity.
  - intros k v c M E X. apply (OC v c); [|exact X]. exists l, k. auto.
  - intros k v c M E X. apply (OI v c); [|exact X]. exists l, k. auto.
Qed.

(** *** Schemas *)
Definition with_tables (s : schema) (ts : list table) : schema := let '(mkSchema a n v _) := s in mkSchema a n v ts.
Lemma sch_tables : forall s v k, to_lower k = "tables" -> sch_member s k v = option_map (with_tables s) (dec_arr dec_table v).
Proof. intros [] v k E. unfold sch_member. rewrite !key_eq by reflexivity. rewrite E. reflexivity. Qed.
Definition schema_view (g : gschema) : schema * bool * bool * bool := (seen_schema g, nil_table g, nil_column g, nil_index g).
Definition flag (p : json -> bool) (b : bool) (kv : string * json) : bool := let '(k, v) := kv in if key_is "tables" k then p v else b.

Lemma sch_scalar : forall k v, String.eqb "tables" (to_lower k) = false ->
  forall g, option_map seen_schema (option_map (fun s => mkGSchema s (g_tables g)) (sch_member (g_head g) k v)) = sch_member (seen_schema g) k v.
Proof.
  intros k v T [[] ts]. unfold seen_schema, seen_tables. cbn [g_head g_tables]. unfold sch_member.
  change (key_is "tables" k) with (String.eqb "tables" (to_lower k)). rewrite T.
  repeat match goal with |- context [if ?b then _ else _] => destruct b end;
    try (match goal with |- context [dec_str ?a ?b] => destruct (dec_str a b) end); reflexivity.
Qed.
Lemma existsb_map : forall A B (f : A -> B) p l, existsb p (map f l) = existsb (fun a => p (f a)) l.
Proof. intros A B f p l. induction l as [|a l IH]; [reflexivity|]. cbn. rewrite IH. reflexivity. Qed.
Lemma some_elements : forall p v, p JNull = false -> existsb p (elements v) = some_element p v.
Proof.
  intros p v N. destruct v as [| | | |l|]; try reflexivity. cbn [elements some_element]. induction l as [|x l IH]; [reflexivity|].
  cbn [filter existsb]. destruct (is_null x) eqn:E; cbn [negb].
  - destruct x; try discriminate. rewrite N. exact IH.
  - cbn [existsb]. rewrite IH. reflexivity.
Qed.

Lemma sch_merge : forall l g, times "tables" l <= 1 -> (0 < times "tables" l -> g_tables g = no_slice) ->
  (forall k v t, In (k, v) l -> to_lower k = "tables" -> element v t -> table_once t) ->
  option_map schema_view (dec_members gsch_member g l)
  = option_map (fun s => (s, fold_left (flag (some_element is_null)) l (nil_table g),
      fold_left (flag (some_element (last_member "columns" (some_element is_null)))) l (nil_column g),
      fold_left (flag (some_element (last_member "indices" (some_element is_null)))) l (nil_index g)))
      (dec_members (fun s k v => sch_member s k (if key_is "tables" k then drop_nulls inner_table v else v)) (seen_schema g) l).
Proof.
  induction l as [|[k v] l IH]; intros g T Z O; [reflexivity|]. rewrite times_cons in T, Z.
  assert (O' := fun k v c I => O k v c (or_intror I)).
  cbn [dec_members fold_left]. unfold gsch_member at 1. unfold flag at 2 4 6.
  change (key_is "tables" k) with (String.eqb "tables" (to_lower k)).
  destruct (String.eqb "tables" (to_lower k)) eqn:E.
  - apply String.eqb_eq in E. symmetry in E. rewrite (sch_tables _ _ k E). rewrite Z by lia.
    pose proof (arr_merge _ _ _ (dec_fields gtbl_member) zero_gtable dec_table inner_table seen_table (fun g => snd (table_view g))
      (fun j => (last_member "columns" (some_element is_null) j, last_member "indices" (some_element is_null) j)) v) as M.
    assert (P := fun x (X : element v x) (_ : is_null x = false) => table_merge x (O k v x (or_introl eq_refl) E X)).
    specialize (M P). clear P.
    destruct (dec_slice (dec_ptr (dec_fields gtbl_member) zero_gtable) None no_slice v) as [s|];
      destruct (dec_arr dec_table (drop_nulls inner_table v)) as [ts|]; cbn [option_map] in M |- *; try discriminate; [|reflexivity].
    injection M as M1 M2 M3.
    rewrite (IH (mkGSchema (g_head g) s) ltac:(lia) ltac:(lia) O').
    assert (NC : nil_column (mkGSchema (g_head g) s) = some_element (last_member "columns" (some_element is_null)) v).
    { unfold nil_column, seen_tables. cbn [g_tables]. rewrite <- (some_elements (last_member "columns" (some_element is_null)) v eq_refl).
      apply (f_equal (existsb fst)) in M3. rewrite !existsb_map in M3. exact M3. }
    assert (NI : nil_index (mkGSchema (g_head g) s) = some_element (last_member "indices" (some_element is_null)) v).
    { unfold nil_index, seen_tables. cbn [g_tables]. rewrite <- (some_elements (last_member "indices" (some_element is_null)) v eq_refl).
      apply (f_equal (existsb snd)) in M3. rewrite !existsb_map in M3. exact M3. }
    rewrite NC, NI. unfold nil_table at 1. cbn [g_tables]. rewrite M2.
    assert (S : seen_schema (mkGSchema (g_head g) s) = with_tables (seen_schema g) ts).
    { unfold seen_schema, with_tables, seen_tables. cbn [g_head g_tables]. rewrite M1. destruct (g_head g). reflexivity. }
    rewrite S. reflexivity.
  - pose proof (sch_scalar k v E g) as M. rewrite <- M.
    destruct (sch_member (g_head g) k v) as [s|]; cbn [option_map]; [|reflexivity].
    rewrite (IH (mkGSchema s (g_tables g)) T Z O'). reflexivity.
Qed.

Lemma merge_agrees : forall j, no_repeats j ->
  option_map (fun g => (seen_schema g, nil_table g, nil_column g, nil_index g)) (from_json_merging j)
  = option_map (fun s => (s, has_null_table j, has_null_column j, has_null_index j)) (from_json (without_nulls j)).
Proof.
  intros j [T O]. destruct j as [| | | | |l]; try reflexivity. unfold without_nulls, map_member, from_json, from_json_merging. cbn [dec_fields dec_obj].
  change (fun t => map_member "indices" (drop_nulls same) (map_member "columns" (drop_nulls same) t)) with inner_table.
  rewrite (members_map _ sch_member (fun k v => if key_is "tables" k then drop_nulls inner_table v else v)).
  apply (sch_merge l zero_gschema).
  - exact (T l eq_refl).
  - reflexivity.
  - intros k v t M E X. apply (O v t); [|exact X]. exists l, k. auto.
Qed.
