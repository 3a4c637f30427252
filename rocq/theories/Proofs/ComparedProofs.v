(** What comparisons look at, and what they do not *)
From Coq Require Import String Ascii List NArith ZArith Bool.
From Verif.Model Require Import GoString Util Octopus Common DiffCore Diff DiffWriters Mysql Liquibase Cli.
From Verif.Spec Require Import MattersSpec.
From Verif.Proofs Require Import CliOptions MattersProofs.
Import ListNotations.
Local Open Scope string_scope.

Definition on_snd {A B} (g : A -> B) (x : nat * A) : nat * B := (fst x, g (snd x)).
Lemma with_pos_map : forall {A B} (g : A -> B) l, with_pos (map g l) = map (on_snd g) (with_pos l).
Proof.
  intros A B g l. unfold with_pos. rewrite map_length. generalize 0. induction l as [|x l IH]; intros n; cbn; [ reflexivity | ].
  now rewrite IH.
Qed.
Lemma tables_by_name_map : forall (e : table -> table) name, (forall t, t_name (e t) = t_name t) -> forall ts,
  tables_by_name (map e ts) name = option_map e (tables_by_name ts name).
Proof.
  intros e name H ts. induction ts as [|t ts IH]; cbn; [ reflexivity | ]. rewrite IH, H.
  destruct (tables_by_name ts name); [ reflexivity | ]. destruct (String.eqb (t_name t) name); reflexivity.
Qed.
Lemma match_removed_map : forall {A} (look look' : string -> option A) same same' (p q : A -> A),
  (forall n, look' n = option_map q (look n)) -> (forall a b, same' (p a) (q b) = same a b) -> forall a ns,
  match_removed look' same' (p a) ns = option_map (fun r => (fst r, q (snd r))) (match_removed look same a ns).
Proof.
  intros A look look' same same' p q L S a ns. induction ns as [|n ns IH]; cbn [match_removed]; [ reflexivity | ].
  rewrite L. destruct (look n) as [r|]; cbn [option_map]; [ | exact IH ]. rewrite S. destruct (same a r); [ reflexivity | exact IH ].
Qed.
Lemma find_renamed_map : forall {A} (look look' : string -> option A) same same' (p q : A -> A),
  (forall n, look' n = option_map q (look n)) -> (forall a b, same' (p a) (q b) = same a b) -> forall added removed,
  find_renamed look' same' (map (on_snd p) added) removed =
  (map (on_snd (fun x => (p (fst x), q (snd x)))) (fst (find_renamed look same added removed)),
   snd (find_renamed look same added removed)).
Proof.
  intros A look look' same same' p q L S added. induction added as [|[i a] added IH]; intros removed; [ reflexivity | ].
  cbn [map find_renamed on_snd fst snd]. rewrite (match_removed_map look look' same same' p q L S).
  destruct (match_removed look same a (ss_slice removed)) as [[n r]|]; cbn [option_map fst snd]; [ | apply IH ].
  rewrite IH. destruct (find_renamed look same added (ss_remove removed n)); reflexivity.
Qed.
Lemma not_renamed_map : forall {A} (p q : A -> A) added renamed,
  not_renamed (map (on_snd p) added) (map (on_snd (fun x => (p (fst x), q (snd x)))) renamed) = map p (not_renamed added renamed).
Proof.
  intros A p q added renamed. unfold not_renamed. rewrite map_map.
  rewrite (filter_plain _ (fun ia => negb (existsb (fun r => Nat.eqb (fst ia) (fst r)) renamed)) (on_snd p)).
  - now rewrite map_map.
  - intros x. f_equal. now apply existsb_plain.
Qed.

Section Skeleton.
  Context {CS : Type} (e : CS -> CS) (pf pt : table -> table).
  Variables (dt dt' : nat -> ident -> table -> table -> option (list CS * ident))
    (dr dr' : ident -> string -> table -> CS) (rn rn' : ident -> table -> table -> list CS * ident)
    (cr cr' : ident -> table -> option (list CS * ident)).
  Definition on_fst (x : list CS * ident) : list CS * ident := (map e (fst x), snd x).
  Hypothesis NF : forall t, t_name (pf t) = t_name t.
  Hypothesis CF : forall t, t_cols (pf t) = t_cols t.
  Hypothesis NT : forall t, t_name (pt t) = t_name t.
  Hypothesis CT : forall t, t_cols (pt t) = t_cols t.
  Hypothesis GT : forall t, t_group (pt t) = t_group t.
  Hypothesis HD : forall i id t o, dt' i id (pt t) (pf o) = option_map on_fst (dt i id t o).
  Hypothesis HR : forall id n t, dr' id n (pf t) = e (dr id n t).
  Hypothesis HN : forall id a b, rn' id (pt a) (pf b) = on_fst (rn id a b).
  Hypothesis HC : forall id t, cr' id (pt t) = option_map on_fst (cr id t).

  Lemma scan_erased : forall g from ts id removed,
    scan_tables dt' (get_table_filter g) (map pf from) (map (on_snd pt) ts) id removed =
    option_map (fun '(css, i, r, added) => (map e css, i, r, map (on_snd pt) added))
      (scan_tables dt (get_table_filter g) from ts id removed).
  Proof.
    intros g from ts. induction ts as [|[i t] ts IH]; intros id removed; [ reflexivity | ].
    cbn [map scan_tables on_snd fst snd]. rewrite (passes_plain g pt GT).
    destruct (negb (passes (get_table_filter g) t)); [ apply IH | ]. cbv zeta. rewrite NT, (tables_by_name_map pf _ NF).
    destruct (tables_by_name from (t_name t)) as [old|]; cbn [option_map].
    - rewrite HD. destruct (dt i (bump_major id) t old) as [[css id1]|]; cbn [option_map on_fst fst snd]; [ | reflexivity ].
      replace (match map e css with [] => revert_major id1 | _ => id1 end) with (match css with [] => revert_major id1 | _ => id1 end)
        by (destruct css; reflexivity).
      rewrite IH. destruct (scan_tables dt (get_table_filter g) from ts _ _) as [[[[a b] c] d]|]; cbn [option_map]; [ | reflexivity ].
      now rewrite map_app.
    - rewrite IH. destruct (scan_tables dt (get_table_filter g) from ts _ _) as [[[[a b] c] d]|]; reflexivity.
  Qed.
  Lemma drop_erased : forall from ns id, drop_tables dr' (map pf from) ns id = on_fst (drop_tables dr from ns id).
  Proof.
    intros from ns. induction ns as [|n ns IH]; intros id; [ reflexivity | ]. cbn [drop_tables]. cbv zeta.
    rewrite IH, (tables_by_name_map pf _ NF). destruct (drop_tables dr from ns (bump_major id)) as [css i].
    cbn [on_fst fst snd]. destruct (tables_by_name from n) as [t|]; cbn [option_map]; [ now rewrite HR | reflexivity ].
  Qed.
  Lemma rename_erased : forall l id,
    rename_tables rn' (map (on_snd (fun x => (pt (fst x), pf (snd x)))) l) id = on_fst (rename_tables rn l id).
  Proof.
    intros l. induction l as [|[i [a b]] l IH]; intros id; [ reflexivity | ]. cbn [map rename_tables on_snd fst snd].
    rewrite HN. destruct (rn (bump_major id) a b) as [css i1]. cbn [on_fst fst snd]. rewrite IH.
    destruct (rename_tables rn l i1) as [css' i2]. cbn [on_fst fst snd]. unfold on_fst. cbn [fst snd]. now rewrite map_app.
  Qed.
  Lemma create_erased : forall l id, create_tables cr' (map pt l) id = option_map on_fst (create_tables cr l id).
  Proof.
    intros l. induction l as [|t l IH]; intros id; [ reflexivity | ]. cbn [map create_tables]. rewrite HC.
    destruct (cr (bump_major id) t) as [[css i1]|]; cbn [option_map on_fst fst snd]; [ | reflexivity ]. rewrite IH.
    destruct (create_tables cr l i1) as [[css' i2]|]; cbn [option_map]; [ | reflexivity ]. unfold on_fst. cbn [fst snd]. now rewrite map_app.
  Qed.
  Lemma diff_erased : forall ord g from to from' to', by_key ord ->
    s_tables from' = map pf (s_tables from) -> s_tables to' = map pt (s_tables to) ->
    diff_schemas dt' dr' rn' cr' ord (get_table_filter g) from' to' =
    option_map (map e) (diff_schemas dt dr rn cr ord (get_table_filter g) from to).
  Proof.
    intros ord g from to from' to' O F T. unfold diff_schemas. cbv zeta. rewrite F, T.
    rewrite (map_plain t_name pf NF), with_pos_map, scan_erased.
    destruct (scan_tables dt (get_table_filter g) (s_tables from) _ _ _) as [[[[css1 id1] removed1] added]|]; cbn [option_map]; [ | reflexivity ].
    rewrite (find_renamed_map (tables_by_name (s_tables from)) (tables_by_name (map pf (s_tables from))) same_columns same_columns pt pf).
    2: { intros n. apply (tables_by_name_map pf n NF). }
    2: { intros a b. unfold same_columns. now rewrite CT, CF. }
    destruct (find_renamed (tables_by_name (s_tables from)) same_columns added removed1) as [renamed removed2]. cbn [fst snd].
    rewrite drop_erased. destruct (drop_tables dr (s_tables from) (ss_slice removed2) id1) as [css2 id2]. cbn [on_fst fst snd].
    assert (O' : ord (map (on_snd (fun x : table * table => (pt (fst x), pf (snd x)))) renamed) =
                 map (on_snd (fun x : table * table => (pt (fst x), pf (snd x)))) (ord renamed))
      by exact (O (fun x : table * table => (pt (fst x), pf (snd x))) renamed).
    rewrite O'.
    rewrite rename_erased. destruct (rename_tables rn (ord renamed) id2) as [css3 id3]. cbn [on_fst fst snd].
    rewrite not_renamed_map, create_erased. destruct (create_tables cr (not_renamed added renamed) id3) as [[css4 i]|]; cbn [option_map on_fst fst snd]; [ | reflexivity ].
    now rewrite !map_app.
  Qed.
End Skeleton.

(** ** Change sets that hold tables *)

Section Report.
  Variables (pf pt : table -> table) (au au' : string).
  Hypothesis NF : forall t, t_name (pf t) = t_name t.
  Hypothesis CF : forall t, t_cols (pf t) = t_cols t.
  Hypothesis DF : forall t, t_desc (pf t) = t_desc t.
  Hypothesis NT : forall t, t_name (pt t) = t_name t.
  Hypothesis CT : forall t, t_cols (pt t) = t_cols t.
  Hypothesis DT : forall t, t_desc (pt t) = t_desc t.
  Hypothesis GT : forall t, t_group (pt t) = t_group t.

  Definition erased_change (ch : change) : change :=
    match ch with
    | CreateTable t => CreateTable (pt t)
    | DropTable t => DropTable (pf t)
    | RenameTable o n => RenameTable (pf o) (pt n)
    | UpdatePrimaryKey o n => UpdatePrimaryKey (pf o) (pt n)
    | DropUniqueConstraint n t => DropUniqueConstraint n (pf t)
    | CreateUniqueConstraint n t => CreateUniqueConstraint n (pt t)
    | SetTableComment t => SetTableComment (pt t)
    | AddColumn t c => AddColumn (pt t) c
    | DropColumn t n => DropColumn (pt t) n
    | SetColumnComment t c => SetColumnComment (pt t) c
    | ChangeColumnType t o n => ChangeColumnType (pt t) o n
    | RenameColumn t o n => RenameColumn (pt t) o n
    | SetNotNullConstraint t c => SetNotNullConstraint (pt t) c
    | SetAutoIncrement t c => SetAutoIncrement (pt t) c
    | SetDefaultValue t c => SetDefaultValue (pt t) c
    end.
  Definition erased_set (cs : cset) : cset := mkCS (cs_id cs) au' (map erased_change (cs_changes cs)).
  Let on := on_fst erased_set.

  Lemma emit_erased : forall b ch st, emit au' b (erased_change ch) (on st) = on (emit au b ch st).
  Proof.
    intros [] ch [css id]; unfold emit, on, on_fst; cbn [fst snd]; [ | reflexivity ]. rewrite map_app. reflexivity.
  Qed.
  Lemma diff_column_erased : forall k t id c o, diff_column au' k (pt t) id c o = on (diff_column au k t id c o).
  Proof.
    intros k t id c o. unfold diff_column. cbv zeta.
    repeat match goal with |- emit au' _ ?ch ?st = on (emit au _ ?ch2 ?st2) =>
      change ch with (erased_change ch2); rewrite <- emit_erased; f_equal end.
  Qed.
  Lemma scan_columns_erased : forall k t old cs id removed,
    scan_columns (fun id c o => Some (diff_column au' k (pt t) id c o)) old cs id removed =
    option_map (fun '(css, i, r, added) => (map erased_set css, i, r, added))
      (scan_columns (fun id c o => Some (diff_column au k t id c o)) old cs id removed).
  Proof.
    intros k t old cs. induction cs as [|[i c] cs IH]; intros id removed; [ reflexivity | ]. cbn [scan_columns].
    destruct (column_name_map old (c_name c)) as [o|].
    - rewrite diff_column_erased. unfold on, on_fst. destruct (diff_column au k t id c o) as [css id1]. cbn [fst snd]. rewrite IH.
      destruct (scan_columns _ old cs id1 _) as [[[[a b] d] x]|]; cbn [option_map]; [ now rewrite map_app | reflexivity ].
    - rewrite IH. destruct (scan_columns _ old cs id removed) as [[[[a b] d] x]|]; reflexivity.
  Qed.
  Lemma fold_erased : forall {X} (f : X -> change) l st,
    fold_left (fun st x => emit au' true (erased_change (f x)) st) l (on st) = on (fold_left (fun st x => emit au true (f x) st) l st).
  Proof. intros X f l. induction l as [|x l IH]; intros st; cbn [fold_left]; [ reflexivity | ]. rewrite emit_erased. apply IH. Qed.
  Lemma uq_erased_t : forall t, uq_name_set (pt t) = uq_name_set t.
  Proof. intros t. unfold uq_name_set. now rewrite CT. Qed.
  Lemma uq_erased_f : forall t, uq_name_set (pf t) = uq_name_set t.
  Proof. intros t. unfold uq_name_set. now rewrite CF. Qed.
  Lemma pk_erased_t : forall t, pk_name_set (pt t) = pk_name_set t.
  Proof. intros t. unfold pk_name_set. now rewrite CT. Qed.
  Lemma pk_erased_f : forall t, pk_name_set (pf t) = pk_name_set t.
  Proof. intros t. unfold pk_name_set. now rewrite CF. Qed.

  Lemma diff_table_erased : forall k x ord id t old,
    diff_table au' k x ord id (pt t) (pf old) = option_map on (diff_table au k x ord id t old).
  Proof.
    intros k x ord id t old. unfold diff_table. rewrite DT, DF, CF, CT, !uq_erased_t, !uq_erased_f, !pk_erased_t, !pk_erased_f, NT.
    change ([], id) with (on ([], id)) at 1. change (SetTableComment (pt t)) with (erased_change (SetTableComment t)).
    rewrite emit_erased. destruct (emit au _ (SetTableComment t) ([], id)) as [css0 id0]. unfold on at 1, on_fst. cbn [fst snd].
    cbv zeta. rewrite scan_columns_erased.
    destruct (scan_columns _ (t_cols old) (with_pos (t_cols t)) id0 _) as [[[[css1 id1] removed1] added]|]; cbn [option_map]; [ | reflexivity ].
    destruct (find_renamed _ _ added removed1) as [renamed removed2]. f_equal.
    rewrite <- map_app. change (map erased_set (css0 ++ css1)%list, id1) with (on ((css0 ++ css1)%list, id1)).
    change (CreateUniqueConstraint (t_name t ++ x) (pt t)) with (erased_change (CreateUniqueConstraint (t_name t ++ x) t)).
    change (UpdatePrimaryKey (pf old) (pt t)) with (erased_change (UpdatePrimaryKey old t)).
    change (DropUniqueConstraint (t_name t ++ x) (pf old)) with (erased_change (DropUniqueConstraint (t_name t ++ x) old)).
    rewrite emit_erased.
    rewrite (fold_erased (fun n => DropColumn t n)).
    rewrite (fold_erased (fun r : nat * (column * column) => RenameColumn t (snd (snd r)) (fst (snd r)))).
    destruct (not_renamed added renamed); [ now rewrite !emit_erased | ].
    match goal with |- context [(fst (on ?st), bump_minor (snd (on ?st)))] =>
      change (fst (on st), bump_minor (snd (on st))) with (on (fst st, bump_minor (snd st))) end.
    now rewrite !emit_erased.
  Qed.
  Lemma rename_table_erased : forall x id nw old,
    rename_table_cs au' x id (pt nw) (pf old) = on (rename_table_cs au x id nw old).
  Proof.
    intros x id nw old. unfold rename_table_cs. cbv zeta. rewrite uq_erased_t, uq_erased_f, NT, NF.
    change (CreateUniqueConstraint (t_name nw ++ x) (pt nw)) with (erased_change (CreateUniqueConstraint (t_name nw ++ x) nw)).
    change (RenameTable (pf old) (pt nw)) with (erased_change (RenameTable old nw)).
    rewrite <- !emit_erased. f_equal. f_equal. unfold on, on_fst. cbn [fst snd]. f_equal.
    destruct (Nat.ltb 0 (ss_size (uq_name_set old))); reflexivity.
  Qed.
  Lemma get_diff_erased : forall ordT ordC g a x k from to from' to', by_key ordT ->
    s_tables from' = map pf (s_tables from) -> s_tables to' = map pt (s_tables to) ->
    choose_author a to = au -> choose_author a to' = au' ->
    get_diff ordT ordC (mkDiffOption (get_table_filter g) a x k) from' to' =
    option_map (map erased_set) (get_diff ordT ordC (mkDiffOption (get_table_filter g) a x k) from to).
  Proof.
    intros ordT ordC g a x k from to from' to' O F T A A'. unfold get_diff. cbn [do_author do_comments do_suffix do_filter]. rewrite A, A'.
    apply (diff_erased erased_set pf pt); auto.
    - intros i id t o. apply diff_table_erased.
    - intros id nw old. apply rename_table_erased.
  Qed.

  (** what the two writers print *)
  Lemma flyway_erased : forall x css, (forall t, t_indices (pt t) = t_indices t) ->
    flyway_write x (map erased_set css) = flyway_write x css.
  Proof.
    intros x css IT. unfold flyway_write. f_equal. rewrite map_map. apply map_ext. intros cs. cbn [erased_set cs_changes].
    do 2 f_equal. apply flat_map_plain. intros ch.
    destruct ch; cbn [erased_change to_sql]; rewrite ?NT, ?NF, ?pk_erased_t; try reflexivity.
    f_equal. unfold export_table. rewrite NT. unfold table_definitions. now rewrite NT, CT, IT.
  Qed.
  Lemma md_line_erased : forall ch, md_line (erased_change ch) = md_line ch.
  Proof.
    intros ch. destruct ch; cbn [erased_change md_line]; rewrite ?NT, ?NF, ?pk_erased_t, ?pk_erased_f, ?uq_erased_t, ?uq_erased_f, ?DT; reflexivity.
  Qed.
  Lemma dep_erased : forall ch, t_name (dep_table (erased_change ch)) = t_name (dep_table ch).
  Proof. intros ch. destruct ch; cbn [erased_change dep_table]; rewrite ?NT, ?NF; reflexivity. Qed.
  Lemma by_table_erased : forall css,
    changes_by_table (map erased_set css) = on_values erased_change (changes_by_table css).
  Proof.
    intros css. unfold changes_by_table. change (@nil (string * list change)) with (on_values (K := string) erased_change []) at 1.
    generalize (@nil (string * list change)) as m. induction css as [|cs css IH]; intros m; cbn [map fold_left]; [ reflexivity | ].
    rewrite <- IH. f_equal. cbn [erased_set cs_changes]. generalize m. clear IH m.
    induction (cs_changes cs) as [|ch l IH]; intros m; cbn [map fold_left]; [ reflexivity | ].
    rewrite <- IH. f_equal. rewrite dep_erased. apply put_on_values.
  Qed.
  Lemma md_erased : forall ord from to from' to' css, s_version from' = s_version from -> s_version to' = s_version to ->
    md_write ord from' to' (map erased_set css) = md_write ord from to css.
  Proof.
    intros ord from to from' to' css VF VT. unfold md_write, md_lines. cbv zeta. rewrite by_table_erased, VF, VT. f_equal. do 4 f_equal.
    unfold mm_keys. replace (map fst (on_values erased_change (changes_by_table css))) with (map fst (changes_by_table css))
      by (unfold on_values; rewrite map_map; reflexivity).
    apply flat_map_ext. intros k. do 2 f_equal. rewrite get_on_values.
    destruct (mm_get String.eqb (changes_by_table css) k) as [l|]; cbn [option_map]; [ | reflexivity ].
    rewrite map_map. apply map_ext. intros ch. now rewrite md_line_erased.
  Qed.
End Report.

(** ** Change logs *)

Section Log.
  Variables (ok : string -> bool) (pf pt : table -> table).
  Hypothesis NF : forall t, t_name (pf t) = t_name t.
  Hypothesis CF : forall t, t_cols (pf t) = t_cols t.
  Hypothesis DF : forall t, t_desc (pf t) = t_desc t.
  Hypothesis NT : forall t, t_name (pt t) = t_name t.
  Hypothesis CT : forall t, t_cols (pt t) = t_cols t.
  Hypothesis DT : forall t, t_desc (pt t) = t_desc t.
  Hypothesis GT : forall t, t_group (pt t) = t_group t.
  Let same (x : list lq_cset * ident) : on_fst (fun c => c) x = x.
  Proof. destruct x as [css i]. unfold on_fst. cbn [fst snd]. now rewrite map_id. Qed.

  Lemma lq_column_erased : forall au k t, lq_diff_column ok au k (pt t) = lq_diff_column ok au k t.
  Proof. intros au k t. unfold lq_diff_column. now rewrite NT. Qed.
  Lemma lq_rename_column_erased : forall au t, lq_rename_column au (pt t) = lq_rename_column au t.
  Proof. intros au t. unfold lq_rename_column. now rewrite NT. Qed.
  Lemma lq_table_erased : forall au k x ord id t old,
    lq_diff_table ok au k x ord id (pt t) (pf old) = lq_diff_table ok au k x ord id t old.
  Proof.
    intros au k x ord id t old. unfold lq_diff_table.
    rewrite lq_column_erased, lq_rename_column_erased, DT, DF, NT, CT, CF, (uq_erased_t pt CT), (uq_erased_f pf CF), (pk_erased_t pt CT), (pk_erased_f pf CF).
    reflexivity.
  Qed.
  Lemma lq_rename_erased : forall au x id nw old, lq_rename_table au x id (pt nw) (pf old) = lq_rename_table au x id nw old.
  Proof. intros au x id nw old. unfold lq_rename_table. now rewrite NT, NF, (uq_erased_t pt CT), (uq_erased_f pf CF). Qed.
  Lemma lq_create_erased : forall au x k id t, new_create_table_cs ok au x k id (pt t) = new_create_table_cs ok au x k id t.
  Proof. intros au x k id t. unfold new_create_table_cs. now rewrite NT, DT, CT, (uq_erased_t pt CT), (pk_erased_t pt CT). Qed.
  Lemma lq_diff_erased : forall ordT ordC g a x k from to from' to', by_key ordT ->
    s_tables from' = map pf (s_tables from) -> s_tables to' = map pt (s_tables to) -> s_author to' = s_author to ->
    lq_diff ok ordT ordC (mkLqOption (get_table_filter g) a x k) from' to' =
    lq_diff ok ordT ordC (mkLqOption (get_table_filter g) a x k) from to.
  Proof.
    intros ordT ordC g a x k from to from' to' O F T A. unfold lq_diff. cbn [lo_filter lo_author lo_suffix lo_comments].
    unfold choose_author. rewrite A.
    rewrite (diff_erased (fun c => c) pf pt) with (from := from) (to := to)
      (dt := fun i id t old => lq_diff_table ok (if negb (String.eqb a "") then a else s_author to) k x (ordC i) id t old)
      (dr := fun id name _ => mkLqCS (version id) (if negb (String.eqb a "") then a else s_author to) false [LqDropTable name])
      (rn := fun id nw old => lq_rename_table (if negb (String.eqb a "") then a else s_author to) x id nw old)
      (cr := fun id t => new_create_table_cs ok (if negb (String.eqb a "") then a else s_author to) x k id t); auto.
    - destruct (diff_schemas _ _ _ _ ordT (get_table_filter g) from to) as [l|]; cbn [option_map]; [ now rewrite map_id | reflexivity ].
    - intros i id t o. rewrite lq_table_erased. destruct (lq_diff_table _ _ _ _ _ _ _ _) as [p|]; cbn [option_map]; [ now rewrite same | reflexivity ].
    - intros id p q. now rewrite lq_rename_erased, same.
    - intros id t. rewrite lq_create_erased. destruct (new_create_table_cs _ _ _ _ _ _) as [p|]; cbn [option_map]; [ now rewrite same | reflexivity ].
  Qed.
End Log.

(** ** The commands *)

Lemma whole_column : forall l c, (forall a, In a column_attributes -> listed l a = true) -> plain_column (listed l) c = c.
Proof.
  intros l c H. unfold plain_column, plain_ref. rewrite !H by (cbn; tauto). destruct c as [? ? ? ? ? ? ? ? ? ? ? ? [[]|]]; reflexivity.
Qed.
Lemma whole_columns : forall l t, (forall a, In a column_attributes -> listed l a = true) -> t_cols (plain_table (listed l) t) = t_cols t.
Proof.
  intros l t H. cbn [plain_table t_cols]. rewrite (map_ext _ (fun c => c)); [ apply map_id | ]. intros c. now apply whole_column.
Qed.

Section Both.
  Variables (w : world) (v : values) (lf lt : list attribute).
  Hypothesis O : by_key (w_ord_tables w).
  Let pf := plain_table (listed lf).
  Let pt := plain_table (listed lt).

  Ltac whole := first [ exact (fun _ => eq_refl) | intros t; apply whole_columns; intros ? I; cbn in I;
    repeat (destruct I as [<-|I]; [ reflexivity | ]); destruct I ].

  Lemma flyway_both : compares DiffFlyway = Some (lf, lt) -> forall a b,
    match get_diff (w_ord_tables w) (w_ord_columns w)
      (mkDiffOption (get_table_filter (flag_string DiffFlyway v "groups")) (flag_string DiffFlyway v "author")
        (flag_string DiffFlyway v "uniqueNameSuffix") (flag_bool DiffFlyway v "comments")) (plain (listed lf) a) (plain (listed lt) b) with
    | Some css => written (flag_string DiffFlyway v "output") (flyway_write (flag_string DiffFlyway v "uniqueNameSuffix") css)
    | None => failed end =
    match get_diff (w_ord_tables w) (w_ord_columns w)
      (mkDiffOption (get_table_filter (flag_string DiffFlyway v "groups")) (flag_string DiffFlyway v "author")
        (flag_string DiffFlyway v "uniqueNameSuffix") (flag_bool DiffFlyway v "comments")) a b with
    | Some css => written (flag_string DiffFlyway v "output") (flyway_write (flag_string DiffFlyway v "uniqueNameSuffix") css)
    | None => failed end.
  Proof.
    intros E a b. injection E as E1 E2. subst pf pt lf lt.
    rewrite (get_diff_erased (plain_table (listed (app [TName; TDesc] column_attributes)))
      (plain_table (listed (app [TName; TDesc; TGroup; TIndices] column_attributes)))
      (choose_author (flag_string DiffFlyway v "author") b)
      (choose_author (flag_string DiffFlyway v "author") (plain (listed (app [TName; TDesc; TGroup; TIndices] column_attributes)) b)))
      with (from := a) (to := b); try whole; try reflexivity; try assumption.
    destruct (get_diff _ _ _ a b) as [css|]; cbn [option_map]; [ | reflexivity ]. f_equal. apply flyway_erased; whole.
  Qed.
  Lemma md_both : compares DiffMd = Some (lf, lt) -> forall g au x k a b,
    let o := mkDiffOption (get_table_filter g) au x k in
    match get_diff (w_ord_tables w) (w_ord_columns w) o (plain (listed lf) a) (plain (listed lt) b) with
    | Some css => written (flag_string DiffMd v "output") (md_write (w_ord_keys w) (plain (listed lf) a) (plain (listed lt) b) css)
    | None => failed end =
    match get_diff (w_ord_tables w) (w_ord_columns w) o a b with
    | Some css => written (flag_string DiffMd v "output") (md_write (w_ord_keys w) a b css)
    | None => failed end.
  Proof.
    intros E g au x k a b o. subst o. injection E as E1 E2. subst pf pt lf lt.
    rewrite (get_diff_erased (plain_table (listed (app [SVersion; TName; TDesc] column_attributes)))
      (plain_table (listed (app [SVersion; TName; TDesc; TGroup] column_attributes)))
      (choose_author au b) (choose_author au (plain (listed (app [SVersion; TName; TDesc; TGroup] column_attributes)) b)))
      with (from := a) (to := b); try whole; try reflexivity; try assumption.
    destruct (get_diff _ _ _ a b) as [css|]; cbn [option_map]; [ | reflexivity ]. f_equal. apply md_erased; first [ whole | reflexivity ].
  Qed.
  Lemma log_both : compares DiffLiquibase = Some (lf, lt) -> forall g a x k from to,
    lq_diff (w_float_ok w) (w_ord_tables w) (w_ord_columns w) (mkLqOption (get_table_filter g) a x k) (plain (listed lf) from) (plain (listed lt) to) =
    lq_diff (w_float_ok w) (w_ord_tables w) (w_ord_columns w) (mkLqOption (get_table_filter g) a x k) from to.
  Proof.
    intros E g a x k from to. injection E as E1 E2. subst pf pt lf lt.
    apply (lq_diff_erased (w_float_ok w) (plain_table (listed (app [TName; TDesc] column_attributes)))
      (plain_table (listed (app [SAuthor; TName; TDesc; TGroup] column_attributes)))); try whole; try reflexivity; assumption.
  Qed.
End Both.

Lemma only_compared : forall w fs fs' c v lf lt nf nt a b a' b',
  compares c = Some (lf, lt) -> by_key (w_ord_tables w) -> v "from" = Some nf -> v "to" = Some nt ->
  load_file w fs nf = Loaded a -> load_file w fs nt = Loaded b -> load_file w fs' nf = Loaded a' -> load_file w fs' nt = Loaded b' ->
  same_schema (fun x => In x lf) a a' -> same_schema (fun x => In x lt) b b' -> run w fs c v = run w fs' c v.
Proof.
  intros w fs fs' c v lf lt nf nt a b a' b' C O F T L1 L2 L3 L4 SF ST. unfold run. destruct (required_given c v); [ | reflexivity ].
  apply plain_eq in SF, ST.
  destruct c; try discriminate C; unfold action; [ unfold diff_flyway | unfold diff_liquibase | unfold diff_md ];
    unfold with_schemas, with_schema;
    match goal with |- context [load_file w fs (flag_string ?c v "from")] =>
      replace (flag_string c v "from") with nf by (cbn; now rewrite F);
      replace (flag_string c v "to") with nt by (cbn; now rewrite T) end;
    rewrite L1, L2, L3, L4.
  - rewrite <- (flyway_both w v lf lt O C a b), <- (flyway_both w v lf lt O C a' b'), SF, ST. reflexivity.
  - rewrite <- (log_both w lf lt O C _ _ _ _ a b), <- (log_both w lf lt O C _ _ _ _ a' b'), SF, ST. reflexivity.
  - rewrite <- (md_both w v lf lt O C _ _ _ _ a b), <- (md_both w v lf lt O C _ _ _ _ a' b'), SF, ST. reflexivity.
Qed.
