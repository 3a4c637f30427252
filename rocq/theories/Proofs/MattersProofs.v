(** What the exporters and generators look at, and what they do not *)
From Coq Require Import String Ascii List NArith ZArith Bool.
From Verif.Model Require Import GoString Util Octopus Common Dbml Quickdbd Mysql Xlsx Gorm Graphql Jpa Liquibase Plantuml
  Protobuf Sqlalchemy Cli.
From Verif.Spec Require Import MattersSpec.
Import ListNotations.
Local Open Scope string_scope.

(** ** Forgetting attributes *)

Definition code (a : attribute) : nat :=
  match a with
  | SAuthor => 0 | SName => 1 | SVersion => 2
  | TName => 3 | TDesc => 4 | TGroup => 5 | TClass => 6 | TIndices => 7
  | CName => 8 | CType => 9 | CDesc => 10 | CSize => 11 | CScale => 12 | CNotNull => 13 | CPk => 14 | CUnique => 15
  | CAutoInc => 16 | CDefault => 17 | COnUpdate => 18 | CValues => 19 | CRef => 20 | CRefColumn => 21 | CRefRel => 22
  end.
Definition listed (l : list attribute) (a : attribute) : bool := existsb (fun b => Nat.eqb (code a) (code b)) l.
Lemma listed_in : forall l a, listed l a = true -> In a l.
Proof.
  intros l a H. unfold listed in H. apply existsb_exists in H. destruct H as (b & I & E). apply PeanoNat.Nat.eqb_eq in E.
  replace a with b; [ exact I | ]. destruct a, b; try reflexivity; discriminate E.
Qed.

Definition kept (b : bool) (x : string) : string := if b then x else "".
Definition kept_n (b : bool) (x : N) : N := if b then x else 0%N.
Definition plain_ref (k : attribute -> bool) (r : option reference) : option reference :=
  if k CRef || k CRefColumn || k CRefRel
  then option_map (fun r => mkRef (kept (k CRef) (ref_table r)) (kept (k CRefColumn) (ref_column r))
                                  (kept (k CRefRel) (ref_rel r))) r
  else None.
Definition plain_column (k : attribute -> bool) (c : column) : column :=
  mkCol (kept (k CName) (c_name c)) (kept (k CType) (c_type c)) (kept (k CDesc) (c_desc c)) (kept_n (k CSize) (c_size c))
        (kept_n (k CScale) (c_scale c)) (k CNotNull && c_notnull c) (k CPk && c_pk c) (k CUnique && c_uq c)
        (k CAutoInc && c_autoinc c) (kept (k CDefault) (c_default c)) (kept (k COnUpdate) (c_onupdate c))
        (if k CValues then c_values c else []) (plain_ref k (c_ref c)).
Definition plain_table (k : attribute -> bool) (t : table) : table :=
  mkTable (kept (k TName) (t_name t)) (map (plain_column k) (t_cols t)) (kept (k TDesc) (t_desc t))
          (kept (k TGroup) (t_group t)) (kept (k TClass) (t_class t)) (if k TIndices then t_indices t else []).
Definition plain (k : attribute -> bool) (s : schema) : schema :=
  mkSchema (kept (k SAuthor) (s_author s)) (kept (k SName) (s_name s)) (kept (k SVersion) (s_version s))
           (map (plain_table k) (s_tables s)).

Lemma kept_eq : forall l a x y, (In a l -> x = y) -> kept (listed l a) x = kept (listed l a) y.
Proof. intros l a x y H. unfold kept. destruct (listed l a) eqn:E; [ exact (H (listed_in _ _ E)) | reflexivity ]. Qed.
Lemma kept_n_eq : forall l a x y, (In a l -> x = y) -> kept_n (listed l a) x = kept_n (listed l a) y.
Proof. intros l a x y H. unfold kept_n. destruct (listed l a) eqn:E; [ exact (H (listed_in _ _ E)) | reflexivity ]. Qed.
Lemma kept_b_eq : forall l a x y, (In a l -> x = y) -> (listed l a && x)%bool = (listed l a && y)%bool.
Proof. intros l a x y H. destruct (listed l a) eqn:E; [ exact (H (listed_in _ _ E)) | reflexivity ]. Qed.
Lemma kept_l_eq : forall {X} l a (x y : list X), (In a l -> x = y) ->
  (if listed l a then x else []) = (if listed l a then y else []).
Proof. intros X l a x y H. destruct (listed l a) eqn:E; [ exact (H (listed_in _ _ E)) | reflexivity ]. Qed.

Lemma plain_ref_eq : forall l x y,
  (In CRef l -> option_map ref_table x = option_map ref_table y) ->
  (In CRefColumn l -> option_map ref_column x = option_map ref_column y) ->
  (In CRefRel l -> option_map ref_rel x = option_map ref_rel y) ->
  plain_ref (listed l) x = plain_ref (listed l) y.
Proof.
  intros l x y R1 R2 R3. unfold plain_ref.
  destruct (listed l CRef) eqn:H1, (listed l CRefColumn) eqn:H2, (listed l CRefRel) eqn:H3; cbn;
    try specialize (R1 (listed_in _ _ H1)); try specialize (R2 (listed_in _ _ H2)); try specialize (R3 (listed_in _ _ H3));
    clear H1 H2 H3;
    destruct x as [[]|], y as [[]|]; cbn in *; try reflexivity; try discriminate; congruence.
Qed.
Lemma plain_column_eq : forall l c d, same_column (fun a => In a l) c d -> plain_column (listed l) c = plain_column (listed l) d.
Proof.
  intros l c d (H1 & H2 & H3 & H4 & H5 & H6 & H7 & H8 & H9 & H10 & H11 & H12 & H13 & H14 & H15).
  unfold plain_column.
  now rewrite (kept_eq _ _ _ _ H1), (kept_eq _ _ _ _ H2), (kept_eq _ _ _ _ H3), (kept_n_eq _ _ _ _ H4), (kept_n_eq _ _ _ _ H5),
    (kept_b_eq _ _ _ _ H6), (kept_b_eq _ _ _ _ H7), (kept_b_eq _ _ _ _ H8), (kept_b_eq _ _ _ _ H9), (kept_eq _ _ _ _ H10),
    (kept_eq _ _ _ _ H11), (kept_l_eq _ _ _ _ H12), (plain_ref_eq _ _ _ H13 H14 H15).
Qed.
Lemma map_eq2 : forall {X Y} (R : X -> X -> Prop) (f : X -> Y) l m, (forall x y, R x y -> f x = f y) ->
  Forall2 R l m -> map f l = map f m.
Proof. intros X Y R f l m H F. induction F as [|x y l m E F IH]; cbn; [ reflexivity | now rewrite (H _ _ E), IH ]. Qed.
Lemma plain_table_eq : forall l t u, same_table (fun a => In a l) t u -> plain_table (listed l) t = plain_table (listed l) u.
Proof.
  intros l t u (H1 & H2 & H3 & H4 & H5 & F). unfold plain_table.
  now rewrite (kept_eq _ _ _ _ H1), (kept_eq _ _ _ _ H2), (kept_eq _ _ _ _ H3), (kept_eq _ _ _ _ H4), (kept_l_eq _ _ _ _ H5),
    (map_eq2 _ _ _ _ (plain_column_eq l) F).
Qed.
Lemma plain_eq : forall l s r, same_schema (fun a => In a l) s r -> plain (listed l) s = plain (listed l) r.
Proof.
  intros l s r (H1 & H2 & H3 & F). unfold plain.
  now rewrite (kept_eq _ _ _ _ H1), (kept_eq _ _ _ _ H2), (kept_eq _ _ _ _ H3), (map_eq2 _ _ _ _ (plain_table_eq l) F).
Qed.

(** ** Lists *)

Lemma map_plain : forall {X Y} (f : X -> Y) (e : X -> X), (forall x, f (e x) = f x) -> forall l, map f (map e l) = map f l.
Proof. intros X Y f e H l. rewrite map_map. apply map_ext. exact H. Qed.
Lemma flat_map_plain : forall {X Z Y} (f : Z -> list Y) (g : X -> list Y) (e : X -> Z), (forall x, f (e x) = g x) ->
  forall l, flat_map f (map e l) = flat_map g l.
Proof. intros X Z Y f g e H l. induction l as [|x l IH]; cbn; [ reflexivity | now rewrite H, IH ]. Qed.
Lemma filter_plain : forall {X Z} (p : Z -> bool) (q : X -> bool) (e : X -> Z), (forall x, p (e x) = q x) ->
  forall l, filter p (map e l) = map e (filter q l).
Proof.
  intros X Z p q e H l. induction l as [|x l IH]; cbn; [ reflexivity | ]. rewrite H, IH. now destruct (q x).
Qed.
Lemma existsb_plain : forall {X Z} (p : Z -> bool) (q : X -> bool) (e : X -> Z), (forall x, p (e x) = q x) ->
  forall l, existsb p (map e l) = existsb q l.
Proof. intros X Z p q e H l. induction l as [|x l IH]; cbn; [ reflexivity | now rewrite H, IH ]. Qed.
Lemma table_by_name_plain : forall (e : table -> table) name, (forall t, t_name (e t) = t_name t) -> forall ts,
  table_by_name (map e ts) name = option_map e (table_by_name ts name).
Proof.
  intros e name H ts. induction ts as [|t ts IH]; cbn; [ reflexivity | ]. rewrite H.
  destruct (String.eqb (t_name t) name); [ reflexivity | exact IH ].
Qed.

(** a filter made from the option groups looks at the group only *)
Lemma passes_plain : forall g (e : table -> table), (forall t, t_group (e t) = t_group t) -> forall t,
  passes (get_table_filter g) (e t) = passes (get_table_filter g) t.
Proof.
  intros g e H t. unfold get_table_filter. destruct (String.eqb g ""); cbn; rewrite ?H; reflexivity.
Qed.

Lemma column_by_name_plain : forall (e : column -> column) name, (forall c, c_name (e c) = c_name c) -> forall cs,
  column_by_name (map e cs) name = option_map e (column_by_name cs name).
Proof.
  intros e name H cs. induction cs as [|c cs IH]; cbn; [ reflexivity | ]. rewrite H.
  destruct (String.eqb (c_name c) name); [ reflexivity | exact IH ].
Qed.

(** ** DBML *)

Definition kept_by (c : command) : attribute -> bool := listed (match looks_at c with Some l => l | None => [] end).

Section Dbml.
  Let pc := plain_column (kept_by ExportDbml).
  Let pt := plain_table (kept_by ExportDbml).

  Lemma dbml_column_plain : forall d c, dbml_column d (pc c) = dbml_column d c.
  Proof. intros d c. unfold dbml_column, dbml_params, dbml_inline. cbn. destruct (c_ref c) as [[]|]; reflexivity. Qed.
  Lemma dbml_deferred_plain : forall d t c, dbml_deferred d (pt t) (pc c) = dbml_deferred d t c.
  Proof. intros d t c. unfold dbml_deferred. cbn. destruct (c_ref c) as [[]|]; reflexivity. Qed.
  Lemma dbml_tables_plain : forall ts d, dbml_tables d (map pt ts) = dbml_tables d ts.
  Proof.
    induction ts as [|t ts IH]; intros d; [ reflexivity | ].
    change (dbml_tables d (map pt (t :: ts))) with
      (let '(ls, rs) := dbml_tables (t_name t :: d) (map pt ts) in
       let head := "Table " ++ t_name t ++ " {" in
       (head :: map (dbml_column d) (map pc (t_cols t)) ++ ["}"; ""] ++ ls,
        flat_map (dbml_deferred d (pt t)) (map pc (t_cols t)) ++ rs)%list).
    rewrite IH, (map_plain _ _ (dbml_column_plain d)), (flat_map_plain _ _ _ (dbml_deferred_plain d t)). reflexivity.
  Qed.
  Lemma dbml_plain : forall f s, export_dbml f (plain (kept_by ExportDbml) s) = export_dbml f s.
  Proof. intros f s. unfold export_dbml. change (s_tables (plain (kept_by ExportDbml) s)) with (map pt (s_tables s)). now rewrite dbml_tables_plain. Qed.
End Dbml.

(** ** QuickDBD *)

Section Qdbd.
  Let pc := plain_column (kept_by ExportQuickdbd).
  Let pt := plain_table (kept_by ExportQuickdbd).

  Lemma qdbd_column_plain : forall c, qdbd_column (pc c) = qdbd_column c.
  Proof. intros c. unfold qdbd_column. cbn. destruct (c_ref c) as [[]|]; reflexivity. Qed.
  Lemma qdbd_block_plain : forall t, qdbd_block (pt t) = qdbd_block t.
  Proof.
    intros t. change (qdbd_block (pt t)) with
      (qdbd_table t :: dashes (String.length (t_name t)) :: map qdbd_column (map pc (t_cols t)) ++ [""])%list.
    now rewrite (map_plain _ _ qdbd_column_plain).
  Qed.
  Lemma qdbd_plain : forall s, qdbd_text (plain (kept_by ExportQuickdbd) s) = qdbd_text s.
  Proof.
    intros s. unfold qdbd_text. change (s_tables (plain (kept_by ExportQuickdbd) s)) with (map pt (s_tables s)).
    now rewrite (flat_map_plain _ _ _ qdbd_block_plain).
  Qed.
End Qdbd.

(** ** MySQL *)

Section My.
  Let pc := plain_column (kept_by ExportMysql).
  Let pt := plain_table (kept_by ExportMysql).

  Lemma column_definition_plain : forall c, column_definition (pc c) = column_definition c.
  Proof. reflexivity. Qed.
  Lemma table_definitions_plain : forall x t, table_definitions x (pt t) = table_definitions x t.
  Proof.
    intros x t. unfold table_definitions. change (t_cols (pt t)) with (map pc (t_cols t)).
    rewrite (filter_plain c_pk c_pk pc (fun _ => eq_refl)), (filter_plain c_uq c_uq pc (fun _ => eq_refl)).
    rewrite !(map_plain (fun c => my_quote (c_name c)) pc (fun _ => eq_refl)), (map_plain _ _ column_definition_plain). reflexivity.
  Qed.
  Lemma mysql_plain : forall g x s, my_export (get_table_filter g) x (plain (kept_by ExportMysql) s) = my_export (get_table_filter g) x s.
  Proof.
    intros g x s. unfold my_export. change (s_tables (plain (kept_by ExportMysql) s)) with (map pt (s_tables s)).
    rewrite (filter_plain _ _ pt (passes_plain g pt (fun _ => eq_refl))), map_plain; [ reflexivity | ].
    intros t. unfold export_table. now rewrite table_definitions_plain.
  Qed.
End My.

(** ** Workbooks *)

Section Xlsx.
  Let pc := plain_column (kept_by ExportXlsx).
  Let pt := plain_table (kept_by ExportXlsx).

  Lemma column_row_plain : forall u c, column_row u (pc c) = column_row u c.
  Proof. intros u c. unfold column_row, column_reference. cbn. destruct (c_ref c) as [[]|]; reflexivity. Qed.
  Lemma tables_rows_plain : forall u g n ts i, tables_rows u g n i (map pt ts) = tables_rows u g n i ts.
  Proof.
    intros u g n ts. induction ts as [|t ts IH]; intros i; [ reflexivity | ]. cbn [map tables_rows].
    change (t_cols (pt t)) with (map pc (t_cols t)). rewrite IH, (map_plain _ _ (column_row_plain u)). reflexivity.
  Qed.
  Lemma group_rows_plain : forall u s g, group_rows u (plain (kept_by ExportXlsx) s) g = group_rows u s g.
  Proof.
    intros u s g. unfold group_rows. change (s_tables (plain (kept_by ExportXlsx) s)) with (map pt (s_tables s)).
    now rewrite map_length, tables_rows_plain.
  Qed.
  Lemma add_group_sheets_plain : forall ok u s gs wb,
    add_group_sheets ok u (plain (kept_by ExportXlsx) s) gs wb = add_group_sheets ok u s gs wb.
  Proof.
    intros ok u s gs. induction gs as [|g gs IH]; intros wb; cbn [add_group_sheets]; [ reflexivity | ].
    rewrite group_rows_plain. destruct (add_sheet ok wb _); [ apply IH | reflexivity ].
  Qed.
  Lemma xlsx_plain : forall ok u s, export_xlsx ok u (plain (kept_by ExportXlsx) s) = export_xlsx ok u s.
  Proof.
    intros ok u s. unfold export_xlsx. change (meta_rows (plain (kept_by ExportXlsx) s)) with (meta_rows s).
    destruct (add_sheet ok [] _); [ | reflexivity ].
    replace (groups (plain (kept_by ExportXlsx) s)) with (groups s); [ apply add_group_sheets_plain | ].
    unfold groups. change (s_tables (plain (kept_by ExportXlsx) s)) with (map pt (s_tables s)).
    now rewrite (map_plain t_group pt (fun _ => eq_refl)).
  Qed.
End Xlsx.

(** ** GORM *)

Section Gorm.
  Variables to_camel to_snake : string -> string.
  Let pc := plain_column (kept_by GenerateGorm).
  Let pt := plain_table (kept_by GenerateGorm).
  Definition plain_go_field (f : go_field) : go_field :=
    mkGoField (pc (go_col f)) (go_name f) (go_type f) (go_override f) (go_imports f).
  Definition plain_go_struct (g : go_struct) : go_struct :=
    mkGoStruct (pt (gs_table g)) (gs_name g) (gs_models g) (map plain_go_field (gs_fields g))
      (map plain_go_field (gs_unique g)) (gs_assocs g).
  Let pf := plain_go_field.

  Lemma go_assoc_plain : forall s remove pm c,
    go_assoc_of to_camel (plain (kept_by GenerateGorm) s) remove pm (pc c) = go_assoc_of to_camel s remove pm c.
  Proof.
    intros s remove pm c. unfold go_assoc_of, pc. cbn. destruct (c_ref c) as [[a b r]|]; [ | reflexivity ]. cbn.
    unfold find_reference. cbn [ref_table ref_column].
    change (s_tables (plain (kept_by GenerateGorm) s)) with (map pt (s_tables s)).
    rewrite (table_by_name_plain pt a (fun _ => eq_refl)). destruct (table_by_name (s_tables s) a) as [t|]; [ | reflexivity ].
    cbn [option_map]. change (t_cols (pt t)) with (map pc (t_cols t)).
    rewrite (column_by_name_plain pc b (fun _ => eq_refl)). destruct (column_by_name (t_cols t) b) as [d|]; reflexivity.
  Qed.
  Lemma new_go_struct_plain : forall om on m s remove pm t,
    new_go_struct to_camel to_snake om on m (plain (kept_by GenerateGorm) s) remove pm (pt t) =
    plain_go_struct (new_go_struct to_camel to_snake om on m s remove pm t).
  Proof.
    intros om on m s remove pm t. unfold new_go_struct, plain_go_struct. cbn [gs_table gs_name gs_models gs_fields gs_unique gs_assocs].
    change (t_cols (pt t)) with (map pc (t_cols t)).
    assert (E : map (new_go_field to_camel to_snake) (map pc (t_cols t)) = map pf (map (new_go_field to_camel to_snake) (t_cols t)))
      by now rewrite !map_map.
    rewrite E, (map_plain (fun f => c_name (go_col f)) pf (fun _ => eq_refl)).
    rewrite (flat_map_plain _ _ _ (go_assoc_plain s remove pm)).
    rewrite (filter_plain (fun f => c_uq (go_col f)) (fun f => c_uq (go_col f)) pf (fun _ => eq_refl)).
    match goal with |- context [filter ?p (map pf ?l)] => rewrite (filter_plain p p pf (fun _ => eq_refl) l) end.
    reflexivity.
  Qed.
  Lemma go_structs_plain : forall om on m s remove pm ts k,
    go_structs_from to_camel to_snake k om on m (plain (kept_by GenerateGorm) s) remove pm (map pt ts) =
    map plain_go_struct (go_structs_from to_camel to_snake k om on m s remove pm ts).
  Proof.
    intros om on m s remove pm ts. induction ts as [|t ts IH]; intros k; [ reflexivity | ].
    cbn [map go_structs_from]. now rewrite new_go_struct_plain, IH.
  Qed.
  Lemma struct_text_plain : forall o g, struct_text o (plain_go_struct g) = struct_text o g.
  Proof.
    intros o g. unfold struct_text. cbn [gs_table gs_name gs_models gs_fields gs_unique gs_assocs plain_go_struct].
    assert (U : unique_name (go_suffix o) (plain_go_struct g) = unique_name (go_suffix o) g)
      by (unfold unique_name; cbn [gs_unique gs_table plain_go_struct]; now rewrite map_length).
    rewrite U.
    match goal with |- context [map ?f (map plain_go_field ?l)] =>
      replace (map f (map plain_go_field l)) with
        (map (fun x => field_line (go_name x) (go_type x) (field_tags (unique_name (go_suffix o) g) (gs_table g) x)) l)
        by (symmetry; rewrite map_map; reflexivity) end.
    reflexivity.
  Qed.
  Lemma gorm_plain : forall om on m e g pkg ptr pm remove x s,
    gorm_generate to_camel to_snake om on m (mkGormOpt e (get_table_filter g) pkg ptr pm remove x) (plain (kept_by GenerateGorm) s) =
    gorm_generate to_camel to_snake om on m (mkGormOpt e (get_table_filter g) pkg ptr pm remove x) s.
  Proof.
    intros om on m e g pkg ptr pm remove x s. unfold gorm_generate, go_structs. cbn [go_embed go_filter go_package go_remove go_prefix].
    change (s_tables (plain (kept_by GenerateGorm) s)) with (map pt (s_tables s)).
    rewrite (filter_plain _ _ pt (passes_plain g pt (fun _ => eq_refl))), go_structs_plain.
    rewrite (map_plain _ _ (struct_text_plain _)). f_equal. f_equal. f_equal. unfold gorm_imports. f_equal. f_equal.
    apply flat_map_plain. intros k. unfold struct_imports. cbn [gs_models gs_fields plain_go_struct]. f_equal.
    now apply flat_map_plain.
  Qed.
End Gorm.

(** ** GraphQL *)

Section Graphql.
  Variables to_camel to_lower_camel plural : string -> string.
  Let pc := plain_column (kept_by GenerateGraphql).
  Let pt := plain_table (kept_by GenerateGraphql).

  Lemma gql_class_plain : forall remove pm, (forall a b, get_prefix pm a = get_prefix pm b) -> forall t,
    gql_class to_camel to_lower_camel remove pm (pt t) = gql_class to_camel to_lower_camel remove pm t.
  Proof.
    intros remove pm P t. unfold gql_class. change (t_cols (pt t)) with (map pc (t_cols t)).
    rewrite (filter_plain c_pk c_pk pc (fun _ => eq_refl)), map_length, map_map. f_equal.
    unfold gql_class_name. change (t_class (pt t)) with (t_class t). rewrite (P (t_group (pt t)) (t_group t)). reflexivity.
  Qed.
  Lemma graphql_plain : forall remove pm s, (forall a b, get_prefix pm a = get_prefix pm b) ->
    gql_text to_camel to_lower_camel plural None remove pm (plain (kept_by GenerateGraphql) s) =
    gql_text to_camel to_lower_camel plural None remove pm s.
  Proof.
    intros remove pm s P. unfold gql_text, gql_classes. change (s_tables (plain (kept_by GenerateGraphql) s)) with (map pt (s_tables s)).
    rewrite (filter_plain (passes None) (passes None) pt (fun _ => eq_refl)), (map_plain _ _ (gql_class_plain remove pm P)). reflexivity.
  Qed.
End Graphql.

(** ** Kotlin *)

Lemma fold_left_plain : forall {X Z Y} (f : Y -> Z -> Y) (g : Y -> X -> Y) (e : X -> Z), (forall a x, f a (e x) = g a x) ->
  forall l a, fold_left f (map e l) a = fold_left g l a.
Proof. intros X Z Y f g e H l. induction l as [|x l IH]; intros a; cbn; [ reflexivity | now rewrite H, IH ]. Qed.

Section Kt.
  Variables to_camel to_lower_camel to_snake : string -> string.
  Variable path_join : list string -> string.
  Let pc := plain_column (kept_by GenerateKt).
  Let pt := plain_table (kept_by GenerateKt).
  Definition plain_kt_field (f : kt_field) : kt_field :=
    mkKtField (pc (kf_col f)) (kf_name f) (kf_override f) (kf_type f) (kf_imports f) (kf_default f).
  Definition plain_kt_class (k : kt_class) : kt_class :=
    mkKtClass (pt (kc_table k)) (kc_name k) (map plain_kt_field (kc_fields k)) (map plain_kt_field (kc_pk k))
      (map plain_kt_field (kc_unique k)).
  Let pf := plain_kt_field.
  Let pk := plain_kt_class.

  Lemma new_kt_field_plain : forall c,
    new_kt_field to_lower_camel to_snake (pc c) = pf (new_kt_field to_lower_camel to_snake c).
  Proof.
    intros c. unfold new_kt_field. change (c_type (pc c)) with (c_type c). destruct (kt_type_of (c_type c)) as [[ty imp] def]. reflexivity.
  Qed.
  Lemma new_kt_class_plain : forall o t,
    new_kt_class to_camel to_lower_camel to_snake o (pt t) = pk (new_kt_class to_camel to_lower_camel to_snake o t).
  Proof.
    intros o t. unfold new_kt_class, pk, plain_kt_class. cbn [kc_table kc_name kc_fields kc_pk kc_unique].
    change (t_cols (pt t)) with (map pc (t_cols t)).
    assert (E : map (new_kt_field to_lower_camel to_snake) (map pc (t_cols t)) = map pf (map (new_kt_field to_lower_camel to_snake) (t_cols t)))
      by (rewrite !map_map; apply map_ext; exact new_kt_field_plain).
    rewrite E, (filter_plain (fun f => c_pk (kf_col f)) (fun f => c_pk (kf_col f)) pf (fun _ => eq_refl)).
    now rewrite (filter_plain (fun f => c_uq (kf_col f)) (fun f => c_uq (kf_col f)) pf (fun _ => eq_refl)).
  Qed.
  Lemma class_of_table_plain : forall n ks, class_of_table (map pk ks) n = class_of_table ks n.
  Proof. intros n ks. induction ks as [|k ks IH]; cbn [map class_of_table]; [ reflexivity | ]. now rewrite IH. Qed.
  Lemma field_annos_plain : forall o ks f,
    field_annos to_lower_camel o (map pk ks) (pf f) = field_annos to_lower_camel o ks f.
  Proof.
    intros o ks f. unfold field_annos.
    assert (R : relation_annos to_lower_camel o (map pk ks) (kf_col (pf f)) = relation_annos to_lower_camel o ks (kf_col f)).
    { unfold relation_annos. destruct (String.eqb (ko_relation o) "VRelation"); [ | reflexivity ]. cbn.
      destruct (c_ref (kf_col f)) as [[a b r]|]; [ | reflexivity ]. cbn. now rewrite class_of_table_plain. }
    rewrite R. reflexivity.
  Qed.
  Lemma fields_lines_plain : forall o ks i fs,
    fields_lines to_lower_camel o (map pk ks) i (map pf fs) = fields_lines to_lower_camel o ks i fs.
  Proof.
    intros o ks i fs. induction fs as [|f fs IH]; [ reflexivity | ]. cbn [map fields_lines].
    rewrite field_annos_plain, IH. destruct fs; reflexivity.
  Qed.
  Lemma id_lines_plain : forall fs, id_lines (map pf fs) = id_lines fs.
  Proof. intros fs. induction fs as [|f fs IH]; [ reflexivity | ]. cbn [map id_lines]. rewrite IH. destruct fs; reflexivity. Qed.
  Lemma composite_plain : forall k, composite (pk k) = composite k.
  Proof. intros k. unfold composite. cbn [kc_pk pk plain_kt_class]. now rewrite map_length. Qed.
  Lemma has_identity_plain : forall o k, has_identity o (pk k) = option_map pf (has_identity o k).
  Proof.
    intros o k. unfold has_identity. cbn [kc_pk pk plain_kt_class]. destruct (String.eqb (ko_identity o) ""); [ reflexivity | ].
    destruct (kc_pk k) as [|f [|g l]]; cbn [map]; [ reflexivity | | reflexivity ]. change (kf_name (plain_kt_field f)) with (kf_name f).
    destruct (String.eqb (kf_name f) "id"); reflexivity.
  Qed.
  Lemma table_lines_plain : forall o k, table_lines o (pk k) = table_lines o k.
  Proof.
    intros o k. unfold table_lines. cbn [kc_unique kc_table pk plain_kt_class]. change (t_name (pt (kc_table k))) with (t_name (kc_table k)).
    destruct (kc_unique k) as [|f l]; [ reflexivity | ].
    change (map plain_kt_field (f :: l)) with (plain_kt_field f :: map plain_kt_field l).
    cbn [map]. rewrite map_map. reflexivity.
  Qed.
  Lemma entity_text_plain : forall o ks k,
    entity_text to_lower_camel o (map pk ks) (pk k) = entity_text to_lower_camel o ks k.
  Proof.
    intros o ks k. unfold entity_text. rewrite has_identity_plain, composite_plain, table_lines_plain.
    assert (K : kt_imports (pk k) = kt_imports k) by (unfold kt_imports; cbn [kc_fields pk plain_kt_class]; now apply fold_left_plain).
    assert (J : java_imports (pk k) = java_imports k).
    { unfold java_imports. rewrite composite_plain. cbn [kc_fields pk plain_kt_class]. now apply fold_left_plain. }
    rewrite K, J. change (kc_fields (pk k)) with (map pf (kc_fields k)). change (kc_pk (pk k)) with (map pf (kc_pk k)).
    rewrite id_lines_plain.
    replace (match option_map pf (has_identity o k) with Some _ => true | None => false end)
      with (match has_identity o k with Some _ => true | None => false end) by (destruct (has_identity o k); reflexivity).
    rewrite fields_lines_plain. destruct (has_identity o k) as [f|]; reflexivity.
  Qed.
  Lemma kt_entities_plain : forall o all dir ks,
    kt_entities to_lower_camel path_join o (map pk all) dir (map pk ks) = kt_entities to_lower_camel path_join o all dir ks.
  Proof.
    intros o all dir ks. induction ks as [|k ks IH]; [ reflexivity | ]. cbn [map kt_entities].
    rewrite entity_text_plain, IH. reflexivity.
  Qed.
  Lemma repository_text_plain : forall o k, repository_text o (pk k) = repository_text o k.
  Proof.
    intros o k. unfold repository_text. rewrite composite_plain. change (kc_pk (pk k)) with (map pf (kc_pk k)).
    destruct (composite k); [ reflexivity | ]. destruct (kc_pk k); reflexivity.
  Qed.
  Lemma kt_repositories_plain : forall o dir ks, kt_repositories path_join o dir (map pk ks) = kt_repositories path_join o dir ks.
  Proof.
    intros o dir ks. induction ks as [|k ks IH]; [ reflexivity | ]. cbn [map kt_repositories]. now rewrite repository_text_plain, IH.
  Qed.
  Lemma kt_plain : forall am pm g e pkg rel remove repos x s out,
    kt_generate to_camel to_lower_camel to_snake path_join (mkKtOpt am pm (get_table_filter g) e pkg rel remove repos x)
      (plain (kept_by GenerateKt) s) out =
    kt_generate to_camel to_lower_camel to_snake path_join (mkKtOpt am pm (get_table_filter g) e pkg rel remove repos x) s out.
  Proof.
    intros am pm g e pkg rel remove repos x s out. unfold kt_generate, kt_classes. cbn [ko_filter ko_package ko_repos].
    change (s_tables (plain (kept_by GenerateKt) s)) with (map pt (s_tables s)).
    rewrite (filter_plain _ _ pt (passes_plain g pt (fun _ => eq_refl))).
    match goal with |- context [map (new_kt_class _ _ _ ?o) (map pt ?l)] =>
      replace (map (new_kt_class to_camel to_lower_camel to_snake o) (map pt l))
        with (map pk (map (new_kt_class to_camel to_lower_camel to_snake o) l))
        by (rewrite !map_map; apply map_ext; intros t; symmetry; apply new_kt_class_plain) end.
    rewrite kt_entities_plain, kt_repositories_plain. reflexivity.
  Qed.
End Kt.

(** ** Liquibase *)

Section Lq.
  Variable ok : string -> bool.
  Let pc := plain_column (kept_by GenerateLiquibase).
  Let pt := plain_table (kept_by GenerateLiquibase).

  Lemma new_lq_column_plain : forall c a b, new_lq_column ok (pc c) a b = new_lq_column ok c a b.
  Proof. reflexivity. Qed.
  Lemma map_lq_columns_plain : forall u a b cs, map_lq_columns ok u a b (map pc cs) = map_lq_columns ok u a b cs.
  Proof.
    intros u a b cs. induction cs as [|c cs IH]; [ reflexivity | ]. cbn [map map_lq_columns]. now rewrite new_lq_column_plain, IH.
  Qed.
  Lemma new_create_table_cs_plain : forall author x u id t, new_create_table_cs ok author x u id (pt t) = new_create_table_cs ok author x u id t.
  Proof.
    intros author x u id t. unfold new_create_table_cs.
    assert (U : uq_name_set (pt t) = uq_name_set t) by (unfold uq_name_set; now apply fold_left_plain).
    assert (P : pk_name_set (pt t) = pk_name_set t) by (unfold pk_name_set; now apply fold_left_plain).
    rewrite U, P. change (t_cols (pt t)) with (map pc (t_cols t)). rewrite map_lq_columns_plain. reflexivity.
  Qed.
  Lemma generate_tables_plain : forall author x u g ts id,
    generate_tables ok author x u (get_table_filter g) (map pt ts) id = generate_tables ok author x u (get_table_filter g) ts id.
  Proof.
    intros author x u g ts. induction ts as [|t ts IH]; intros id; [ reflexivity | ]. cbn [map generate_tables].
    rewrite (passes_plain g pt (fun _ => eq_refl)), new_create_table_cs_plain. destruct (negb _); [ apply IH | ].
    destruct (new_create_table_cs ok author x u _ t) as [[css id1]|]; [ | reflexivity ]. now rewrite IH.
  Qed.
  Lemma liquibase_plain : forall g a x u s,
    lq_generate ok (mkLqOption (get_table_filter g) a x u) (plain (kept_by GenerateLiquibase) s) =
    lq_generate ok (mkLqOption (get_table_filter g) a x u) s.
  Proof. intros g a x u s. exact (generate_tables_plain (s_author s) x u g (s_tables s) _). Qed.
End Lq.

(** ** PlantUML *)

Section Puml.
  Let pc := plain_column (kept_by GeneratePlantuml).
  Let pt := plain_table (kept_by GeneratePlantuml).

  Lemma puml_columns_plain : forall cs b, puml_columns b (map pc cs) = puml_columns b cs.
  Proof.
    induction cs as [|c cs IH]; intros b; [ reflexivity | ]. cbn [map puml_columns].
    replace (puml_column (pc c)) with (puml_column c) by (unfold puml_column; cbn; destruct (c_ref c); reflexivity).
    rewrite !IH. reflexivity.
  Qed.
  Lemma puml_entity_plain : forall t, puml_entity (pt t) = puml_entity t.
  Proof. intros t. unfold puml_entity. change (t_cols (pt t)) with (map pc (t_cols t)). now rewrite puml_columns_plain. Qed.
  Lemma puml_refs_plain : forall t, puml_refs (pt t) = puml_refs t.
  Proof.
    intros t. unfold puml_refs. change (t_cols (pt t)) with (map pc (t_cols t)). apply flat_map_plain.
    intros c. cbn. destruct (c_ref c) as [[]|]; reflexivity.
  Qed.
  Lemma plantuml_plain : forall s, puml_text (plain (kept_by GeneratePlantuml) s) = puml_text s.
  Proof.
    intros s. unfold puml_text. change (s_tables (plain (kept_by GeneratePlantuml) s)) with (map pt (s_tables s)).
    now rewrite (flat_map_plain _ _ _ puml_entity_plain), (flat_map_plain _ _ _ puml_refs_plain).
  Qed.
End Puml.

(** ** Protocol buffers: whether a relation is repeated is not shown *)

Section Pb.
  Variables to_camel to_lower_camel : string -> string.
  Let pc := plain_column (kept_by GeneratePb).
  Let pt := plain_table (kept_by GeneratePb).
  Definition plain_rel (l : list (string * bool)) : list (string * bool) := map (fun p => (fst p, false)) l.
  Definition plain_msg (m : pb_message) : pb_message :=
    mkPbMsg (pm_name m) (pm_fields m) (map (fun r => mkPbRel (pr_type r) (pr_name r) (pr_tag r) false) (pm_relations m)) (pm_imports m).
  Definition plain_res {A B} (f : A -> B) (r : res A) : res B := match r with Ok a => Ok (f a) | Panic => Panic end.

  Lemma pb_relations_plain : forall o s cs,
    pb_relations to_camel o (plain (kept_by GeneratePb) s) (map pc cs) = plain_res plain_rel (pb_relations to_camel o s cs).
  Proof.
    intros o s cs. induction cs as [|c cs IH]; [ reflexivity | ]. cbn [map pb_relations].
    change (c_ref (pc c)) with (option_map (fun r => mkRef (ref_table r) "" "") (c_ref c)).
    destruct (c_ref c) as [[a b r]|]; [ | exact IH ]. cbn [option_map ref_table ref_rel].
    change (s_tables (plain (kept_by GeneratePb) s)) with (map pt (s_tables s)).
    rewrite (table_by_name_plain pt a (fun _ => eq_refl)). destruct (table_by_name (s_tables s) a) as [t|]; [ | reflexivity ].
    cbn [option_map]. rewrite IH. destruct (pb_relations to_camel o s cs); reflexivity.
  Qed.
  Lemma pb_fields_plain : forall cs n, pb_fields to_lower_camel n (map pc cs) = pb_fields to_lower_camel n cs.
  Proof. induction cs as [|c cs IH]; intros n; [ reflexivity | ]. cbn [map pb_fields]. now rewrite IH. Qed.
  Lemma pb_tag_plain : forall st l i, pb_tag_relations to_lower_camel st i (plain_rel l) =
    map (fun r => mkPbRel (pr_type r) (pr_name r) (pr_tag r) false) (pb_tag_relations to_lower_camel st i l).
  Proof. intros st l. induction l as [|[a b] l IH]; intros i; [ reflexivity | ]. cbn [map plain_rel pb_tag_relations fst]. now rewrite <- IH. Qed.
  Lemma pb_new_message_plain : forall o s t,
    pb_new_message to_camel to_lower_camel o (plain (kept_by GeneratePb) s) (pt t) =
    plain_res plain_msg (pb_new_message to_camel to_lower_camel o s t).
  Proof.
    intros o s t. unfold pb_new_message. change (t_cols (pt t)) with (map pc (t_cols t)).
    rewrite pb_relations_plain, pb_fields_plain, map_length. destruct (pb_relations to_camel o s (t_cols t)) as [l|]; [ | reflexivity ].
    cbn [plain_res]. rewrite pb_tag_plain. unfold plain_rel at 1. rewrite map_length. reflexivity.
  Qed.
  Lemma pb_messages_plain : forall o s ts,
    res_map (pb_new_message to_camel to_lower_camel o (plain (kept_by GeneratePb) s)) (map pt ts) =
    plain_res (map plain_msg) (res_map (pb_new_message to_camel to_lower_camel o s) ts).
  Proof.
    intros o s ts. induction ts as [|t ts IH]; [ reflexivity | ]. cbn [map res_map]. rewrite pb_new_message_plain.
    destruct (pb_new_message to_camel to_lower_camel o s t) as [m|]; [ | reflexivity ]. cbn [plain_res]. rewrite IH.
    destruct (res_map _ ts); reflexivity.
  Qed.
  Lemma pb_text_plain : forall p g ms, pb_text p g (map plain_msg ms) = pb_text p g ms.
  Proof.
    intros p g ms. unfold pb_text.
    rewrite (fold_left_plain (fun acc m => ss_add_all acc (pm_imports m)) (fun acc m => ss_add_all acc (pm_imports m)) plain_msg (fun _ _ => eq_refl)).
    rewrite map_plain; [ reflexivity | ]. intros m. unfold pb_message_text. cbn [pm_name pm_fields pm_relations plain_msg].
    now rewrite (map_map (fun r => mkPbRel (pr_type r) (pr_name r) (pr_tag r) false)).
  Qed.
  Lemma pb_plain : forall pm g remove pkg gp st d s,
    pb_generate to_camel to_lower_camel (mkPbOpt pm (get_table_filter g) remove pkg gp st d) (plain (kept_by GeneratePb) s) =
    pb_generate to_camel to_lower_camel (mkPbOpt pm (get_table_filter g) remove pkg gp st d) s.
  Proof.
    intros pm g remove pkg gp st d s. unfold pb_generate, pb_messages. cbn [po_filter po_package po_go_package].
    change (s_tables (plain (kept_by GeneratePb) s)) with (map pt (s_tables s)).
    rewrite (filter_plain _ _ pt (passes_plain g pt (fun _ => eq_refl))), pb_messages_plain.
    destruct (res_map _ _); [ | reflexivity ]. cbn [plain_res]. now rewrite pb_text_plain.
  Qed.
End Pb.

(** ** SQLAlchemy *)

Section Sa.
  Variables to_camel to_snake : string -> string.
  Let pc := plain_column (kept_by GenerateSqlalchemy).
  Let pt := plain_table (kept_by GenerateSqlalchemy).
  Definition plain_sa_field (f : sa_field) : sa_field :=
    mkSaField (pc (sf_col f)) (sf_name f) (sf_override f) (sf_type f) (sf_imports f).
  Definition plain_sa_class (k : sa_class) : sa_class :=
    mkSaClass (pt (sc_table k)) (sc_name k) (map plain_sa_field (sc_fields k)) (map plain_sa_field (sc_unique k)).
  Let pf := plain_sa_field.
  Let pk := plain_sa_class.

  Lemma sa_classes_plain : forall pm g remove x u s,
    sa_classes to_camel to_snake (mkSaOpt pm (get_table_filter g) remove x u) (plain (kept_by GenerateSqlalchemy) s) =
    map pk (sa_classes to_camel to_snake (mkSaOpt pm (get_table_filter g) remove x u) s).
  Proof.
    intros pm g remove x u s. unfold sa_classes. cbn [so_filter].
    change (s_tables (plain (kept_by GenerateSqlalchemy) s)) with (map pt (s_tables s)).
    rewrite (filter_plain _ _ pt (passes_plain g pt (fun _ => eq_refl))), !map_map. apply map_ext. intros t.
    unfold new_sa_class, pk, plain_sa_class. cbn [sc_table sc_name sc_fields sc_unique].
    change (t_cols (pt t)) with (map pc (t_cols t)).
    assert (E : map (new_sa_field to_snake) (map pc (t_cols t)) = map pf (map (new_sa_field to_snake) (t_cols t))) by now rewrite !map_map.
    rewrite E. now rewrite (filter_plain (fun f => c_uq (sf_col f)) (fun f => c_uq (sf_col f)) pf (fun _ => eq_refl)).
  Qed.
  Lemma has_constraint_plain : forall k, has_constraint (pk k) = has_constraint k.
  Proof. intros k. unfold has_constraint. cbn [sc_unique pk plain_sa_class]. now rewrite map_length. Qed.
  Lemma class_lines_plain : forall o k, class_lines o (pk k) = class_lines o k.
  Proof.
    intros o k. unfold class_lines. rewrite has_constraint_plain. change (sc_fields (pk k)) with (map pf (sc_fields k)).
    rewrite (map_plain (column_line (so_utc o)) pf (fun _ => eq_refl)).
    replace (unique_line o (pk k)) with (unique_line o k); [ reflexivity | ].
    unfold unique_line. cbn [sc_unique sc_table pk plain_sa_class]. now rewrite map_map.
  Qed.
  Lemma class_sa_plain : forall o k, class_sa o (pk k) = class_sa o k.
  Proof.
    intros o k. unfold class_sa. rewrite has_constraint_plain. f_equal. change (sc_fields (pk k)) with (map pf (sc_fields k)).
    now apply flat_map_plain.
  Qed.
  Lemma class_imports_plain : forall o k, class_imports o (pk k) = class_imports o k.
  Proof. intros o k. unfold class_imports. change (sc_fields (pk k)) with (map pf (sc_fields k)). now apply flat_map_plain. Qed.
  Lemma sa_each_plain : forall o ks sa im, sa_each o sa im (map pk ks) = sa_each o sa im ks.
  Proof.
    intros o ks. induction ks as [|k ks IH]; intros sa im; [ reflexivity | ]. cbn [map sa_each].
    now rewrite class_sa_plain, class_imports_plain, class_lines_plain, IH.
  Qed.
  Lemma sa_plain : forall pm g remove x u s out,
    sa_generate to_camel to_snake (mkSaOpt pm (get_table_filter g) remove x u) (plain (kept_by GenerateSqlalchemy) s) out =
    sa_generate to_camel to_snake (mkSaOpt pm (get_table_filter g) remove x u) s out.
  Proof.
    intros pm g remove x u s out. unfold sa_generate, sa_single, sa_separate. rewrite sa_classes_plain, sa_each_plain.
    rewrite (flat_map_plain _ _ _ (class_sa_plain _)), (flat_map_plain _ _ _ (class_imports_plain _)), (flat_map_plain _ _ _ (class_lines_plain _)).
    match goal with |- context [existsb ?p (map pk ?l)] => rewrite (existsb_plain p p pk) end; [ reflexivity | ].
    intros k. change (sc_fields (pk k)) with (map pf (sc_fields k)). now apply existsb_plain.
  Qed.
End Sa.

(** ** The commands *)

Lemma with_schema_plain : forall w fs fs' n k l s r,
  load_file w fs n = Loaded s -> load_file w fs' n = Loaded r -> same_schema (fun a => In a l) s r ->
  (forall x, k (plain (listed l) x) = k x) -> with_schema w fs n k = with_schema w fs' n k.
Proof.
  intros w fs fs' n k l s r L L' S P. unfold with_schema. rewrite L, L', <- (P s), <- (P r), (plain_eq l s r S). reflexivity.
Qed.

Lemma constant_prefix : forall pm a b, new_prefix_mapper "" = Ok pm -> get_prefix pm a = get_prefix pm b.
Proof. intros pm a b E. injection E as <-. reflexivity. Qed.

Lemma only_these : forall w fs fs' c v l n s r,
  looks_at c = Some l -> v "input" = Some n -> load_file w fs n = Loaded s -> load_file w fs' n = Loaded r ->
  same_schema (fun a => In a l) s r -> run w fs c v = run w fs' c v.
Proof.
  intros w fs fs' c v l n s r A I L L' S. unfold run. destruct (required_given c v); [ | reflexivity ].
  destruct c; try discriminate A; injection A as <-; unfold action;
    [ unfold export_dbml_file | unfold export_quickdbd_file | unfold export_mysql_file | unfold export_xlsx_file | unfold generate_gorm
    | unfold generate_graphql | unfold generate_kt | unfold generate_liquibase | unfold generate_plantuml | unfold generate_pb
    | unfold generate_sqlalchemy ];
    match goal with |- context [with_schema w fs ?x] => replace x with n by (cbn; now rewrite I) end;
    eapply with_schema_plain; eauto; intros x.
  - f_equal. apply dbml_plain.
  - f_equal. apply qdbd_plain.
  - f_equal. apply mysql_plain.
  - now rewrite xlsx_plain.
  - destruct (new_prefix_mapper _); [ cbn [with_res] | reflexivity ]. now rewrite gorm_plain.
  - change (flag_string GenerateGraphql v "prefix") with "". change (flag_string GenerateGraphql v "groups") with "".
    destruct (new_prefix_mapper "") as [pm|] eqn:E; [ cbn [with_res] | reflexivity ].
    change (get_table_filter "") with (@None (table -> bool)). rewrite graphql_plain; [ reflexivity | ].
    intros a b. now apply constant_prefix.
  - destruct (new_anno_mapper _); [ cbn [with_res] | reflexivity ]. destruct (new_prefix_mapper _); [ cbn [with_res] | reflexivity ].
    now rewrite kt_plain.
  - now rewrite liquibase_plain.
  - f_equal. apply plantuml_plain.
  - unfold pb_cli_option. destruct (new_prefix_mapper _); [ cbn [with_res] | reflexivity ]. now rewrite pb_plain.
  - destruct (new_prefix_mapper _); [ cbn [with_res] | reflexivity ]. now rewrite sa_plain.
Qed.
