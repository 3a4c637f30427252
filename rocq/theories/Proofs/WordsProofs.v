(** Descriptions in comparisons without comments *)
From Coq Require Import String Ascii List NArith ZArith Bool.
From Coq Require Import Sorting.Permutation.
From Verif.Model Require Import GoString Util Octopus Common DiffCore Diff DiffWriters Mysql Liquibase Cli.
From Verif.Spec Require Import DiffSpec OptionsSpec MattersSpec WordsSpec.
From Verif.Proofs Require Import StringLemmas DiffCoreProofs CliOptions MattersProofs ComparedProofs.
Import ListNotations.
Local Open Scope string_scope.

(** ** Schemas without descriptions *)

Definition other_attributes : list attribute :=
  [SAuthor; SName; SVersion; TName; TGroup; TClass; TIndices; CName; CType; CSize; CScale; CNotNull; CPk; CUnique; CAutoInc; CDefault;
   COnUpdate; CValues; CRef; CRefColumn; CRefRel].
Definition wc : column -> column := plain_column (listed other_attributes).
Definition wt : table -> table := plain_table (listed other_attributes).
Definition ws : schema -> schema := plain (listed other_attributes).

Lemma ws_eq : forall s r, same_but_words s r -> ws s = ws r.
Proof.
  intros s r H. apply plain_eq. unfold same_but_words in H.
  assert (W : forall a, In a other_attributes -> a <> TDesc /\ a <> CDesc)
    by (intros a I; cbn in I; repeat (destruct I as [<-|I]; [ split; discriminate | ]); destruct I).
  destruct H as (H1 & H2 & H3 & F). unfold same_schema.
  refine (conj (fun I => H1 (W _ I)) (conj (fun I => H2 (W _ I)) (conj (fun I => H3 (W _ I)) _))).
  induction F as [|t u l m T F IH]; constructor; [ | exact IH ]. destruct T as (T1 & T2 & T3 & T4 & T5 & C).
  refine (conj (fun I => T1 (W _ I)) (conj (fun I => T2 (W _ I)) (conj (fun I => T3 (W _ I)) (conj (fun I => T4 (W _ I)) (conj (fun I => T5 (W _ I)) _))))).
  clear -C W. induction C as [|c d l m C F IH]; constructor; [ | exact IH ].
  destruct C as (H1 & H2 & H3 & H4 & H5 & H6 & H7 & H8 & H9 & H10 & H11 & H12 & H13 & H14 & H15).
  exact (conj (fun I => H1 (W _ I)) (conj (fun I => H2 (W _ I)) (conj (fun I => H3 (W _ I)) (conj (fun I => H4 (W _ I)) (conj (fun I => H5 (W _ I))
    (conj (fun I => H6 (W _ I)) (conj (fun I => H7 (W _ I)) (conj (fun I => H8 (W _ I)) (conj (fun I => H9 (W _ I)) (conj (fun I => H10 (W _ I))
    (conj (fun I => H11 (W _ I)) (conj (fun I => H12 (W _ I)) (conj (fun I => H13 (W _ I)) (conj (fun I => H14 (W _ I)) (fun I => H15 (W _ I)))))))))))))))).
Qed.

Lemma column_name_map_words : forall cs n, column_name_map (map wc cs) n = option_map wc (column_name_map cs n).
Proof.
  intros cs n. induction cs as [|c cs IH]; cbn [map column_name_map]; [ reflexivity | ]. rewrite IH.
  destruct (column_name_map cs n); [ reflexivity | ]. change (c_name (wc c)) with (c_name c). cbn [option_map].
  match goal with |- context [String.eqb ?a ?b] => destruct (String.eqb a b) end; reflexivity.
Qed.
Lemma uq_words : forall t, uq_name_set (wt t) = uq_name_set t.
Proof. intros t. unfold uq_name_set. now apply fold_left_plain. Qed.
Lemma pk_words : forall t, pk_name_set (wt t) = pk_name_set t.
Proof. intros t. unfold pk_name_set. now apply fold_left_plain. Qed.
Lemma names_words : forall t, map c_name (t_cols (wt t)) = map c_name (t_cols t).
Proof. intros t. change (t_cols (wt t)) with (map wc (t_cols t)). exact (map_plain c_name wc (fun _ => eq_refl) (t_cols t)). Qed.

Section Columns.
  Context {CS : Type} (e : CS -> CS).
  Variables dc dc' : ident -> column -> column -> option (list CS * ident).
  Hypothesis HL : forall id c o, dc' id (wc c) (wc o) = option_map (on_fst e) (dc id c o).
  Lemma scan_columns_words : forall old cs id removed,
    scan_columns dc' (map wc old) (map (on_snd wc) cs) id removed =
    option_map (fun '(css, i, r, added) => (map e css, i, r, map (on_snd wc) added)) (scan_columns dc old cs id removed).
  Proof.
    intros old cs. induction cs as [|[i c] cs IH]; intros id removed; [ reflexivity | ]. cbn [map scan_columns on_snd fst snd].
    change (c_name (wc c)) with (c_name c). rewrite column_name_map_words.
    destruct (column_name_map old (c_name c)) as [o|]; cbn [option_map].
    - rewrite HL. destruct (dc id c o) as [[css id1]|]; cbn [option_map on_fst fst snd]; [ | reflexivity ]. rewrite IH.
      destruct (scan_columns dc old cs id1 _) as [[[[a b] d] x]|]; cbn [option_map]; [ now rewrite map_app | reflexivity ].
    - rewrite IH. destruct (scan_columns dc old cs id removed) as [[[[a b] d] x]|]; reflexivity.
  Qed.
End Columns.

(** ** Without new tables nothing is renamed and nothing created *)

Lemma tables_by_name_found : forall ts n, In n (map t_name ts) -> tables_by_name ts n <> None.
Proof.
  intros ts n. induction ts as [|t ts IH]; cbn; [ tauto | ]. intros I. destruct (tables_by_name ts n) eqn:E; [ discriminate | ].
  destruct I as [<-|I]; [ rewrite String.eqb_refl; discriminate | now apply IH in I ].
Qed.
Lemma no_added : forall {CS} (dt : nat -> ident -> table -> table -> option (list CS * ident)) f from ts id removed css i r added,
  (forall x, In x ts -> In (t_name (snd x)) (map t_name from)) ->
  scan_tables dt f from ts id removed = Some (css, i, r, added) -> added = [].
Proof.
  intros CS dt f from ts. induction ts as [|[j t] ts IH]; intros id removed css i r added H E; cbn [scan_tables] in E; [ now injection E as <- <- <- <- | ].
  assert (H' : forall x, In x ts -> In (t_name (snd x)) (map t_name from)) by (intros x I; apply H; now right).
  destruct (negb (passes f t)); [ exact (IH _ _ _ _ _ _ H' E) | ]. cbv zeta in E.
  destruct (tables_by_name from (t_name t)) as [old|] eqn:F.
  - destruct (dt j (bump_major id) t old) as [[css1 id1]|]; [ | discriminate ].
    destruct (scan_tables dt f from ts _ _) as [[[[a b] c] d]|] eqn:G; [ | discriminate ]. injection E as <- <- <- <-. exact (IH _ _ _ _ _ _ H' G).
  - exfalso. exact (tables_by_name_found _ _ (H _ (or_introl eq_refl)) F).
Qed.

Section Skeleton.
  Context {CS : Type} (e : CS -> CS).
  Variables (dt dt' : nat -> ident -> table -> table -> option (list CS * ident))
    (dr dr' : ident -> string -> table -> CS) (rn rn' : ident -> table -> table -> list CS * ident)
    (cr cr' : ident -> table -> option (list CS * ident)).
  Hypothesis HD : forall i id t o, dt' i id (wt t) (wt o) = option_map (on_fst e) (dt i id t o).
  Hypothesis HR : forall id n t, dr' id n (wt t) = e (dr id n t).
  Lemma diff_words : forall ord g from to, iteration_order ord -> no_new_tables from to ->
    diff_schemas dt' dr' rn' cr' ord (get_table_filter g) (ws from) (ws to) =
    option_map (map e) (diff_schemas dt dr rn cr ord (get_table_filter g) from to).
  Proof.
    intros ord g from to O N. unfold diff_schemas. cbv zeta.
    change (s_tables (ws from)) with (map wt (s_tables from)). change (s_tables (ws to)) with (map wt (s_tables to)).
    rewrite (map_plain t_name wt (fun _ => eq_refl)), with_pos_map.
    rewrite (scan_erased e wt wt dt dt' (fun _ => eq_refl) (fun _ => eq_refl) (fun _ => eq_refl) HD).
    destruct (scan_tables dt (get_table_filter g) (s_tables from) _ _ _) as [[[[css1 id1] removed1] added]|] eqn:E; cbn [option_map]; [ | reflexivity ].
    assert (A : added = []).
    { refine (no_added _ _ _ _ _ _ _ _ _ _ _ E). intros [j t] I. apply N. apply (in_map snd) in I. cbn [snd] in *.
      rewrite with_pos_snd in I. exact I. }
    rewrite A. cbn [map find_renamed].
    rewrite (drop_erased e wt dr dr' (fun _ => eq_refl) HR).
    destruct (drop_tables dr (s_tables from) (ss_slice removed1) id1) as [css2 id2]. cbn [on_fst fst snd].
    assert (O' : ord [] = []) by (apply Permutation_nil, Permutation_sym, (O [])). rewrite O'.
    cbn [rename_tables not_renamed filter map create_tables option_map]. rewrite !map_app. reflexivity.
  Qed.
End Skeleton.

(** ** Reports *)

(** changes of comments are left alone: they do not occur without the option *)
Definition wch (ch : change) : change :=
  match ch with
  | CreateTable t => CreateTable (wt t)
  | DropTable t => DropTable (wt t)
  | RenameTable o n => RenameTable (wt o) (wt n)
  | UpdatePrimaryKey o n => UpdatePrimaryKey (wt o) (wt n)
  | DropUniqueConstraint n t => DropUniqueConstraint n (wt t)
  | CreateUniqueConstraint n t => CreateUniqueConstraint n (wt t)
  | SetTableComment t => SetTableComment t
  | AddColumn t c => AddColumn (wt t) (wc c)
  | DropColumn t n => DropColumn (wt t) n
  | SetColumnComment t c => SetColumnComment t c
  | ChangeColumnType t o n => ChangeColumnType (wt t) (wc o) (wc n)
  | RenameColumn t o n => RenameColumn (wt t) (wc o) (wc n)
  | SetNotNullConstraint t c => SetNotNullConstraint (wt t) (wc c)
  | SetAutoIncrement t c => SetAutoIncrement (wt t) (wc c)
  | SetDefaultValue t c => SetDefaultValue (wt t) (wc c)
  end.
Definition wcs (cs : cset) : cset := mkCS (cs_id cs) (cs_author cs) (map wch (cs_changes cs)).
Notation won := (on_fst wcs).

Lemma emit_words : forall au b ch st, emit au b (wch ch) (won st) = won (emit au b ch st).
Proof. intros au [] ch [css id]; unfold emit, on_fst; cbn [fst snd]; [ | reflexivity ]. rewrite map_app. reflexivity. Qed.
Lemma diff_column_words : forall au t id c o,
  diff_column au false (wt t) id (wc c) (wc o) = won (diff_column au false t id c o).
Proof.
  intros au t id c o. unfold diff_column. cbv zeta. cbn [andb]. unfold emit at 4 10.
  repeat match goal with |- emit au _ ?ch ?st = won (emit au _ ?ch2 ?st2) =>
    change ch with (wch ch2); rewrite <- emit_words; f_equal end.
Qed.
Lemma fold_words : forall au {X} (f : X -> change) l st,
  fold_left (fun st x => emit au true (wch (f x)) st) l (won st) = won (fold_left (fun st x => emit au true (f x) st) l st).
Proof. intros au X f l. induction l as [|x l IH]; intros st; cbn [fold_left]; [ reflexivity | ]. rewrite emit_words. apply IH. Qed.
Lemma diff_table_words : forall au x ord id t old, by_key ord ->
  diff_table au false x ord id (wt t) (wt old) = option_map won (diff_table au false x ord id t old).
Proof.
  intros au x ord id t old O. unfold diff_table. rewrite !uq_words, !pk_words, names_words. cbn [andb emit].
  cbv zeta. change (t_cols (wt old)) with (map wc (t_cols old)). change (t_cols (wt t)) with (map wc (t_cols t)). change (t_name (wt t)) with (t_name t).
  rewrite with_pos_map.
  rewrite (scan_columns_words wcs (fun id c o => Some (diff_column au false t id c o)))
    by (intros; cbn [option_map]; now rewrite diff_column_words).
  destruct (scan_columns _ (t_cols old) (with_pos (t_cols t)) id _) as [[[[css1 id1] removed1] added]|]; cbn [option_map]; [ | reflexivity ].
  rewrite (find_renamed_map (column_name_map (t_cols old)) (column_name_map (map wc (t_cols old)))
    (fun a r => is_renamed a r (negb false)) (fun a r => is_renamed a r (negb false)) wc wc).
  2: { intros n. apply column_name_map_words. }
  2: { reflexivity. }
  destruct (find_renamed (column_name_map (t_cols old)) (fun a r => is_renamed a r (negb false)) added removed1) as [renamed removed2].
  cbn [fst snd]. f_equal.
  assert (O' : ord (map (on_snd (fun x : column * column => (wc (fst x), wc (snd x)))) renamed) =
               map (on_snd (fun x : column * column => (wc (fst x), wc (snd x)))) (ord renamed))
    by exact (O (fun x : column * column => (wc (fst x), wc (snd x))) renamed).
  rewrite O', not_renamed_map. change ([] ++ map wcs css1)%list with (map wcs css1). change ([] ++ css1)%list with css1.
  change (map wcs css1, id1) with (won (css1, id1)).
  change (CreateUniqueConstraint (t_name t ++ x) (wt t)) with (wch (CreateUniqueConstraint (t_name t ++ x) t)).
  change (UpdatePrimaryKey (wt old) (wt t)) with (wch (UpdatePrimaryKey old t)).
  change (DropUniqueConstraint (t_name t ++ x) (wt old)) with (wch (DropUniqueConstraint (t_name t ++ x) old)).
  rewrite emit_words.
  rewrite (fold_words au (fun n => DropColumn t n)).
  rewrite (fold_left_plain _ (fun st r => emit au true (wch ((fun r : nat * (column * column) => RenameColumn t (snd (snd r)) (fst (snd r))) r)) st)
    (on_snd (fun x : column * column => (wc (fst x), wc (snd x)))) (fun _ _ => eq_refl)).
  rewrite (fold_words au (fun r : nat * (column * column) => RenameColumn t (snd (snd r)) (fst (snd r)))).
  destruct (not_renamed added renamed) as [|z zs]; cbn [map]; [ now rewrite !emit_words | ].
  match goal with |- context [(fst (won ?st), bump_minor (snd (won ?st)))] =>
    change (fst (won st), bump_minor (snd (won st))) with (won (fst st, bump_minor (snd st))) end.
  now rewrite !emit_words.
Qed.
Lemma get_diff_words : forall ordT ordC g a x from to, iteration_order ordT -> (forall i, by_key (ordC i)) -> no_new_tables from to ->
  get_diff ordT ordC (mkDiffOption (get_table_filter g) a x false) (ws from) (ws to) =
  option_map (map wcs) (get_diff ordT ordC (mkDiffOption (get_table_filter g) a x false) from to).
Proof.
  intros ordT ordC g a x from to O OC N. unfold get_diff. cbn [do_author do_comments do_suffix do_filter].
  change (choose_author a (ws to)) with (choose_author a to). apply diff_words; auto.
  intros i id t o. now apply diff_table_words.
Qed.
Lemma md_line_words : forall ch, md_line (wch ch) = md_line ch.
Proof. intros ch. destruct ch; cbn [wch md_line]; rewrite ?pk_words, ?uq_words; reflexivity. Qed.
Lemma dep_words : forall ch, t_name (dep_table (wch ch)) = t_name (dep_table ch).
Proof. intros ch. destruct ch; reflexivity. Qed.
Lemma by_table_words : forall css, changes_by_table (map wcs css) = on_values wch (changes_by_table css).
Proof.
  intros css. unfold changes_by_table. change (@nil (string * list change)) with (on_values (K := string) wch []) at 1.
  generalize (@nil (string * list change)) as m. induction css as [|cs css IH]; intros m; cbn [map fold_left]; [ reflexivity | ].
  rewrite <- IH. f_equal. cbn [wcs cs_changes]. generalize m. clear IH m.
  induction (cs_changes cs) as [|ch l IH]; intros m; cbn [map fold_left]; [ reflexivity | ].
  rewrite <- IH. f_equal. rewrite dep_words. apply put_on_values.
Qed.
Lemma md_words : forall ord from to css, md_write ord (ws from) (ws to) (map wcs css) = md_write ord from to css.
Proof.
  intros ord from to css. unfold md_write, md_lines. cbv zeta. rewrite by_table_words.
  change (s_version (ws from)) with (s_version from). change (s_version (ws to)) with (s_version to). f_equal. do 4 f_equal.
  unfold mm_keys. replace (map fst (on_values wch (changes_by_table css))) with (map fst (changes_by_table css))
    by (unfold on_values; rewrite map_map; reflexivity).
  apply flat_map_ext. intros k. do 2 f_equal. rewrite get_on_values.
  destruct (mm_get String.eqb (changes_by_table css) k) as [l|]; cbn [option_map]; [ | reflexivity ].
  rewrite map_map. apply map_ext. intros ch. now rewrite md_line_words.
Qed.

(** ** Change logs *)

Section Log.
  Variable ok : string -> bool.
  Let same (x : list lq_cset * ident) : on_fst (fun c => c) x = x.
  Proof. destruct x as [css i]. unfold on_fst. cbn [fst snd]. now rewrite map_id. Qed.

  Lemma lq_column_words : forall au t id c o, lq_diff_column ok au false (wt t) id (wc c) (wc o) = lq_diff_column ok au false t id c o.
  Proof. reflexivity. Qed.
  Lemma new_lq_column_words : forall c a b,
    option_map (lc_comments false) (new_lq_column ok (wc c) a b) = option_map (lc_comments false) (new_lq_column ok c a b).
  Proof.
    intros c a b. unfold new_lq_column. change (new_lq_default ok (wc c)) with (new_lq_default ok c). change (c_default (wc c)) with (c_default c).
    destruct (negb (String.eqb (c_default c) "")); [ | reflexivity ]. destruct (new_lq_default ok c); reflexivity.
  Qed.
  Lemma last_col_words : forall cs i, last_col_name (map wc cs) i = last_col_name cs i.
  Proof. intros cs [|i]; [ reflexivity | ]. cbn [last_col_name]. rewrite nth_error_map. destruct (nth_error cs i); reflexivity. Qed.
  Lemma add_column_words : forall all cs,
    add_column_list ok false (map wc all) (map (on_snd wc) cs) = add_column_list ok false all cs.
  Proof.
    intros all cs. induction cs as [|[i c] cs IH]; [ reflexivity | ]. cbn [map add_column_list on_snd fst snd]. rewrite IH, last_col_words.
    assert (H := new_lq_column_words c true true).
    destruct (new_lq_column ok (wc c) true true) as [x|], (new_lq_column ok c true true) as [y|]; cbn [option_map] in H; try discriminate H; [ | reflexivity ].
    destruct (add_column_list ok false all cs); [ | reflexivity ]. injection H as H1 H2 H3 H4 H5 H6. do 2 f_equal.
    unfold lc_set_after, lc_comments. cbn. congruence.
  Qed.
  Lemma map_columns_words : forall a b cs, map_lq_columns ok false a b (map wc cs) = map_lq_columns ok false a b cs.
  Proof.
    intros a b cs. induction cs as [|c cs IH]; [ reflexivity | ]. cbn [map map_lq_columns]. rewrite IH.
    assert (H := new_lq_column_words c a b).
    destruct (new_lq_column ok (wc c) a b) as [x|], (new_lq_column ok c a b) as [y|]; cbn [option_map] in H; try discriminate H; [ | reflexivity ].
    destruct (map_lq_columns ok false a b cs); [ | reflexivity ]. injection H as H1 H2 H3 H4 H5 H6. do 2 f_equal.
    unfold lc_comments. congruence.
  Qed.
  Lemma lq_table_words : forall au x ord id t old, by_key ord ->
    lq_diff_table ok au false x ord id (wt t) (wt old) = lq_diff_table ok au false x ord id t old.
  Proof.
    intros au x ord id t old O. unfold lq_diff_table. rewrite !uq_words, !pk_words, names_words. cbn [andb lq_emit].
    cbv zeta. change (t_cols (wt old)) with (map wc (t_cols old)). change (t_cols (wt t)) with (map wc (t_cols t)). change (t_name (wt t)) with (t_name t).
    rewrite with_pos_map.
    rewrite (scan_columns_words (fun c => c) (lq_diff_column ok au false t))
      by (intros i c o; rewrite lq_column_words; destruct (lq_diff_column ok au false t i c o); cbn [option_map]; [ now rewrite same | reflexivity ]).
    destruct (scan_columns _ (t_cols old) (with_pos (t_cols t)) id _) as [[[[css1 id1] removed1] added]|]; cbn [option_map]; [ | reflexivity ].
    rewrite (find_renamed_map (column_name_map (t_cols old)) (column_name_map (map wc (t_cols old)))
      (fun a r => is_renamed a r (negb false)) (fun a r => is_renamed a r (negb false)) wc wc).
    2: { intros n. apply column_name_map_words. }
    2: { reflexivity. }
    destruct (find_renamed (column_name_map (t_cols old)) (fun a r => is_renamed a r (negb false)) added removed1) as [renamed removed2].
    cbn [fst snd]. rewrite map_id.
    assert (O' : ord (map (on_snd (fun x : column * column => (wc (fst x), wc (snd x)))) renamed) =
                 map (on_snd (fun x : column * column => (wc (fst x), wc (snd x)))) (ord renamed))
      by exact (O (fun x : column * column => (wc (fst x), wc (snd x))) renamed).
    rewrite O'.
    assert (R : forall l st, fold_left (lq_rename_column au (wt t)) (map (on_snd (fun x : column * column => (wc (fst x), wc (snd x)))) l) st =
      fold_left (lq_rename_column au t) l st) by (intros; now apply fold_left_plain).
    rewrite R.
    match goal with |- context [filter ?f (map (on_snd wc) added)] =>
      replace (filter f (map (on_snd wc) added)) with
        (map (on_snd wc) (filter (fun ia => negb (existsb (fun r => Nat.eqb (fst ia) (fst r)) renamed)) added)) end.
    - destruct (filter _ added) as [|z zs]; cbn [map]; [ reflexivity | ].
      change (on_snd wc z :: map (on_snd wc) zs) with (map (on_snd wc) (z :: zs)). rewrite add_column_words. reflexivity.
    - clear. induction added as [|[i c] l IH]; [ reflexivity | ]. cbn [map filter on_snd fst].
      assert (X : existsb (fun r : nat * (column * column) => Nat.eqb i (fst r))
                    (map (on_snd (fun x : column * column => (wc (fst x), wc (snd x)))) renamed) =
                  existsb (fun r : nat * (column * column) => Nat.eqb i (fst r)) renamed) by now apply existsb_plain.
      rewrite X. destruct (existsb _ renamed); cbn [negb map]; rewrite IH; reflexivity.
  Qed.
  Lemma lq_diff_words : forall ordT ordC g a x from to, iteration_order ordT -> (forall i, by_key (ordC i)) -> no_new_tables from to ->
    lq_diff ok ordT ordC (mkLqOption (get_table_filter g) a x false) (ws from) (ws to) =
    lq_diff ok ordT ordC (mkLqOption (get_table_filter g) a x false) from to.
  Proof.
    intros ordT ordC g a x from to O OC N. unfold lq_diff. cbn [lo_filter lo_author lo_suffix lo_comments].
    change (choose_author a (ws to)) with (choose_author a to).
    rewrite (diff_words (fun c => c)
      (fun i id t old => lq_diff_table ok (choose_author a to) false x (ordC i) id t old) (fun i id t old => lq_diff_table ok (choose_author a to) false x (ordC i) id t old)
      (fun id name _ => mkLqCS (version id) (choose_author a to) false [LqDropTable name]) (fun id name _ => mkLqCS (version id) (choose_author a to) false [LqDropTable name])
      (fun id nw old => lq_rename_table (choose_author a to) x id nw old) (fun id nw old => lq_rename_table (choose_author a to) x id nw old)
      (fun id t => new_create_table_cs ok (choose_author a to) x false id t) (fun id t => new_create_table_cs ok (choose_author a to) x false id t)); auto.
    - destruct (diff_schemas _ _ _ _ ordT (get_table_filter g) from to) as [l|]; cbn [option_map]; [ now rewrite map_id | reflexivity ].
    - intros i id t o. rewrite lq_table_words by auto. destruct (lq_diff_table _ _ _ _ _ _ _ _) as [p|]; cbn [option_map]; [ now rewrite same | reflexivity ].
  Qed.
End Log.

(** ** The commands *)

Lemma off : forall c v, without_comments v -> flag_bool c v "comments" = false.
Proof.
  intros c v H. unfold flag_bool. destruct (str_in _ _) eqn:S; [ | reflexivity ]. apply str_in_iff in S. exfalso. revert S.
  unfold flag_string. destruct (declared c "comments"), (v "comments") as [x|] eqn:E; try exact (H x E);
    intros I; cbn in I; repeat (destruct I as [I|I]; [ discriminate I | ]); exact I.
Qed.

Lemma no_new_same : forall a b a' b', same_but_words a a' -> same_but_words b b' -> no_new_tables a b -> no_new_tables a' b'.
Proof.
  assert (names : forall s r, same_but_words s r -> map t_name (s_tables s) = map t_name (s_tables r)).
  { intros s r (_ & _ & _ & F). induction F as [|t u l m T F IH]; cbn; [ reflexivity | ]. rewrite IH. f_equal.
    apply T. split; discriminate. }
  intros a b a' b' A B N t I. apply names in A, B. rewrite <- A. apply (in_map t_name) in I. rewrite <- B in I.
  apply in_map_iff in I. destruct I as (u & <- & I). now apply N.
Qed.

Lemma words_compared : forall w fs fs' c v nf nt a b a' b', In c [DiffMd; DiffLiquibase] -> without_comments v ->
  iteration_order (w_ord_tables w) -> (forall i, by_key (w_ord_columns w i)) -> v "from" = Some nf -> v "to" = Some nt ->
  load_file w fs nf = Loaded a -> load_file w fs nt = Loaded b -> load_file w fs' nf = Loaded a' -> load_file w fs' nt = Loaded b' ->
  same_but_words a a' -> same_but_words b b' -> no_new_tables a b -> run w fs c v = run w fs' c v.
Proof.
  intros w fs fs' c v nf nt a b a' b' C V O OC F T L1 L2 L3 L4 SA SB N.
  assert (N' := no_new_same _ _ _ _ SA SB N). apply ws_eq in SA, SB.
  unfold run. destruct (required_given c v); [ | reflexivity ]. assert (K := off c v V).
  destruct C as [<-|[<-|[]]]; unfold action; [ unfold diff_md | unfold diff_liquibase ];
    unfold with_schemas, with_schema;
    match goal with |- context [load_file w fs (flag_string ?c v "from")] =>
      replace (flag_string c v "from") with nf by (cbn; now rewrite F);
      replace (flag_string c v "to") with nt by (cbn; now rewrite T) end;
    rewrite L1, L2, L3, L4, K.
  - match goal with |- context [get_diff _ _ (mkDiffOption (get_table_filter ?g) ?p ?q false) a b] =>
      assert (E1 := get_diff_words _ (w_ord_columns w) g p q a b O OC N);
      assert (E2 := get_diff_words _ (w_ord_columns w) g p q a' b' O OC N') end.
    rewrite SA, SB in E1. rewrite E1 in E2. clear E1.
    destruct (get_diff _ _ _ a b) as [css|], (get_diff _ _ _ a' b') as [css'|]; cbn [option_map] in E2; try discriminate E2; [ | reflexivity ].
    injection E2 as E2. rewrite <- (md_words _ a b), <- (md_words _ a' b'), E2, SA, SB. reflexivity.
  - match goal with |- context [lq_diff _ _ _ (mkLqOption (get_table_filter ?g) ?p ?q false) a b] =>
      rewrite <- (lq_diff_words _ _ (w_ord_columns w) g p q a b O OC N), <- (lq_diff_words _ _ (w_ord_columns w) g p q a' b' O OC N'), SA, SB end.
    reflexivity.
Qed.

(** ** The change log of one schema: descriptions of tables are always in it *)

Definition vt : table -> table := plain_table (listed (TDesc :: other_attributes)).
Definition vs : schema -> schema := plain (listed (TDesc :: other_attributes)).
Lemma create_words : forall ok au x id t, new_create_table_cs ok au x false id (vt t) = new_create_table_cs ok au x false id t.
Proof.
  intros ok au x id t. unfold new_create_table_cs.
  assert (U : uq_name_set (vt t) = uq_name_set t) by (unfold uq_name_set; now apply fold_left_plain).
  assert (P : pk_name_set (vt t) = pk_name_set t) by (unfold pk_name_set; now apply fold_left_plain).
  rewrite U, P. change (t_cols (vt t)) with (map wc (t_cols t)). rewrite map_columns_words. reflexivity.
Qed.
Lemma generate_words : forall ok au x g ts id,
  generate_tables ok au x false (get_table_filter g) (map vt ts) id = generate_tables ok au x false (get_table_filter g) ts id.
Proof.
  intros ok au x g ts. induction ts as [|t ts IH]; intros id; [ reflexivity | ]. cbn [map generate_tables].
  rewrite (passes_plain g vt (fun _ => eq_refl)), create_words. destruct (negb _); [ apply IH | ].
  destruct (new_create_table_cs ok au x false _ t) as [[css id1]|]; [ | reflexivity ]. now rewrite IH.
Qed.
Lemma words_generated : forall w fs fs' v f s s', without_comments v -> v "input" = Some f ->
  load_file w fs f = Loaded s -> load_file w fs' f = Loaded s' -> same_schema (fun a => a <> CDesc) s s' ->
  run w fs GenerateLiquibase v = run w fs' GenerateLiquibase v.
Proof.
  intros w fs fs' v f s s' V F L1 L2 S.
  assert (E : vs s = vs s').
  { apply plain_eq. revert S. clear.
    assert (W : forall a, In a (TDesc :: other_attributes) -> a <> CDesc)
      by (intros a I; cbn in I; repeat (destruct I as [<-|I]; [ discriminate | ]); destruct I).
    intros (H1 & H2 & H3 & F).
    refine (conj (fun I => H1 (W _ I)) (conj (fun I => H2 (W _ I)) (conj (fun I => H3 (W _ I)) _))).
    induction F as [|t u l m T F IH]; constructor; [ | exact IH ]. destruct T as (T1 & T2 & T3 & T4 & T5 & C).
    refine (conj (fun I => T1 (W _ I)) (conj (fun I => T2 (W _ I)) (conj (fun I => T3 (W _ I)) (conj (fun I => T4 (W _ I)) (conj (fun I => T5 (W _ I)) _))))).
    clear -C W. induction C as [|c d l m C F IH]; constructor; [ | exact IH ].
    destruct C as (G1 & G2 & G3 & G4 & G5 & G6 & G7 & G8 & G9 & G10 & G11 & G12 & G13 & G14 & G15).
    exact (conj (fun I => G1 (W _ I)) (conj (fun I => G2 (W _ I)) (conj (fun I => G3 (W _ I)) (conj (fun I => G4 (W _ I)) (conj (fun I => G5 (W _ I))
      (conj (fun I => G6 (W _ I)) (conj (fun I => G7 (W _ I)) (conj (fun I => G8 (W _ I)) (conj (fun I => G9 (W _ I)) (conj (fun I => G10 (W _ I))
      (conj (fun I => G11 (W _ I)) (conj (fun I => G12 (W _ I)) (conj (fun I => G13 (W _ I)) (conj (fun I => G14 (W _ I)) (fun I => G15 (W _ I)))))))))))))))). }
  unfold run. destruct (required_given GenerateLiquibase v); [ | reflexivity ]. unfold action, generate_liquibase, with_schema.
  replace (flag_string GenerateLiquibase v "input") with f by (cbn; now rewrite F). rewrite L1, L2, (off _ _ V).
  unfold lq_generate. cbn [lo_filter lo_suffix lo_comments].
  rewrite <- (generate_words _ (s_author s) _ _ (s_tables s)), <- (generate_words _ (s_author s') _ _ (s_tables s')).
  change (map vt (s_tables s)) with (s_tables (vs s)). change (map vt (s_tables s')) with (s_tables (vs s')).
  change (s_author s) with (s_author (vs s)). change (s_author s') with (s_author (vs s')). rewrite E. reflexivity.
Qed.
