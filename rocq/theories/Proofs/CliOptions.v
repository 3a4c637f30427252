(** Which options have an effect *)
From Coq Require Import String Ascii List NArith ZArith Bool Lia.
From Verif.Model Require Import GoString GoPath Util Octopus Common Json JsonText Cli DiffCore Diff DiffWriters Liquibase Protobuf Dbml.
From Verif.Spec Require Import OctopusSpec OjsonSpec DiffSpec CliSpec OptionsSpec.
From Verif.Proofs Require Import StringLemmas OctopusProofs OjsonProofs CliCases.
Import ListNotations.
Local Open Scope string_scope.

(** ** Two comparisons whose change sets agree after a mapping *)
Section Same.
Context {CS D : Type} (g : CS -> D).
Definition same_pair (a b : list CS * ident) : Prop := map g (fst a) = map g (fst b) /\ snd a = snd b.
Definition same_opt (a b : option (list CS * ident)) : Prop :=
  match a, b with
  | None, None => True
  | Some x, Some y => same_pair x y
  | _, _ => False
  end.
Variables (dt1 dt2 : nat -> ident -> table -> table -> option (list CS * ident))
  (dr1 dr2 : ident -> string -> table -> CS) (rn1 rn2 : ident -> table -> table -> list CS * ident)
  (cr1 cr2 : ident -> table -> option (list CS * ident)).
Hypothesis HD : forall i id t o, same_opt (dt1 i id t o) (dt2 i id t o).
Hypothesis HR : forall id n t, g (dr1 id n t) = g (dr2 id n t).
Hypothesis HN : forall id a b, same_pair (rn1 id a b) (rn2 id a b).
Hypothesis HC : forall id t, same_opt (cr1 id t) (cr2 id t).

Definition same_scan {X} (a b : option (list CS * ident * sset * X)) : Prop :=
  match a, b with
  | None, None => True
  | Some (l, i, r, x), Some (l', i', r', x') => map g l = map g l' /\ i = i' /\ r = r' /\ x = x'
  | _, _ => False
  end.
Lemma scan_same : forall f from ts id removed,
  same_scan (scan_tables dt1 f from ts id removed) (scan_tables dt2 f from ts id removed).
Proof.
  intros f from. induction ts as [|[i t] ts IH]; intros id removed; cbn [scan_tables]; [cbn; auto|].
  destruct (negb (passes f t)); [apply IH|]. cbv zeta.
  destruct (tables_by_name from (t_name t)) as [old|].
  - generalize (HD i (bump_major id) t old).
    destruct (dt1 i (bump_major id) t old) as [[l1 i1]|], (dt2 i (bump_major id) t old) as [[l2 i2]|]; cbn [same_opt]; try easy.
    intros [E1 E2]. cbn [fst snd] in E1, E2. subst i2.
    assert (N : (match l1 with [] => revert_major i1 | _ => i1 end) = (match l2 with [] => revert_major i1 | _ => i1 end)).
    { destruct l1, l2; cbn in E1; try discriminate; reflexivity. }
    rewrite <- N. generalize (IH (match l1 with [] => revert_major i1 | _ => i1 end) (ss_remove removed (t_name t))).
    destruct (scan_tables dt1 f from ts _ _) as [[[[a b] c] d]|], (scan_tables dt2 f from ts _ _) as [[[[a' b'] c'] d']|];
      cbn [same_scan]; try easy.
    intros (P & Q & R & S). subst. rewrite !map_app, E1, P. auto.
  - generalize (IH id (ss_remove removed (t_name t))).
    destruct (scan_tables dt1 f from ts _ _) as [[[[a b] c] d]|], (scan_tables dt2 f from ts _ _) as [[[[a' b'] c'] d']|];
      cbn [same_scan]; try easy.
    intros (P & Q & R & S). subst. auto.
Qed.
Lemma drop_same : forall from names id, same_pair (drop_tables dr1 from names id) (drop_tables dr2 from names id).
Proof.
  intros from. induction names as [|n ns IH]; intros id; cbn [drop_tables]; [split; reflexivity|].
  generalize (IH (bump_major id)). destruct (drop_tables dr1 from ns _) as [a b], (drop_tables dr2 from ns _) as [a' b'].
  intros [P Q]. cbn [fst snd] in P, Q. subst. destruct (tables_by_name from n); split; cbn [fst snd map]; auto.
  now rewrite P, HR.
Qed.
Lemma rename_same : forall l id, same_pair (rename_tables rn1 l id) (rename_tables rn2 l id).
Proof.
  induction l as [|[k [nw old]] l IH]; intros id; cbn [rename_tables]; [split; reflexivity|].
  generalize (HN (bump_major id) nw old). destruct (rn1 _ nw old) as [a b], (rn2 _ nw old) as [a' b'].
  intros [P Q]. cbn [fst snd] in P, Q. subst b'. generalize (IH b).
  destruct (rename_tables rn1 l b) as [x y], (rename_tables rn2 l b) as [x' y']. intros [R S]. cbn [fst snd] in R, S.
  split; cbn [fst snd]; [now rewrite !map_app, P, R|exact S].
Qed.
Lemma create_same : forall l id, same_opt (create_tables cr1 l id) (create_tables cr2 l id).
Proof.
  induction l as [|t l IH]; intros id; cbn [create_tables]; [split; reflexivity|].
  generalize (HC (bump_major id) t). destruct (cr1 _ t) as [[a b]|], (cr2 _ t) as [[a' b']|]; cbn [same_opt]; try easy.
  intros [P Q]. cbn [fst snd] in P, Q. subst b'. generalize (IH b).
  destruct (create_tables cr1 l b) as [[x y]|], (create_tables cr2 l b) as [[x' y']|]; cbn [same_opt]; try easy.
  intros [R S]. cbn [fst snd] in R, S. split; cbn [fst snd]; [now rewrite !map_app, P, R|exact S].
Qed.
Lemma diff_same : forall ord f from to,
  option_map (map g) (diff_schemas dt1 dr1 rn1 cr1 ord f from to) = option_map (map g) (diff_schemas dt2 dr2 rn2 cr2 ord f from to).
Proof.
  intros ord f from to. unfold diff_schemas. cbv zeta.
  generalize (scan_same f (s_tables from) (with_pos (s_tables to)) new_id (ss_new (map t_name (s_tables from)))).
  destruct (scan_tables dt1 f _ _ _ _) as [[[[a b] c] d]|], (scan_tables dt2 f _ _ _ _) as [[[[a' b'] c'] d']|];
    cbn [same_scan]; try easy.
  intros (P & Q & R & S). subst.
  destruct (find_renamed _ same_columns d' c') as [renamed removed].
  generalize (drop_same (s_tables from) (ss_slice removed) b').
  destruct (drop_tables dr1 _ _ b') as [x y], (drop_tables dr2 _ _ b') as [x' y']. intros [X Y]. cbn [fst snd] in X, Y. subst y'.
  generalize (rename_same (ord renamed) y).
  destruct (rename_tables rn1 _ y) as [u v], (rename_tables rn2 _ y) as [u' v']. intros [U V]. cbn [fst snd] in U, V. subst v'.
  generalize (create_same (not_renamed d' renamed) v).
  destruct (create_tables cr1 _ v) as [[p q]|], (create_tables cr2 _ v) as [[p' q']|]; cbn [same_opt]; try easy.
  intros [A B]. cbn [fst snd] in A, B. cbn [option_map]. now rewrite !map_app, P, X, U, A.
Qed.

Variables dc1 dc2 : ident -> column -> column -> option (list CS * ident).
Hypothesis HL : forall id c o, same_opt (dc1 id c o) (dc2 id c o).
Lemma columns_same : forall old cs id removed,
  same_scan (scan_columns dc1 old cs id removed) (scan_columns dc2 old cs id removed).
Proof.
  intros old. induction cs as [|[i c] cs IH]; intros id removed; cbn [scan_columns]; [cbn; auto|].
  destruct (column_name_map old (c_name c)) as [o|].
  - generalize (HL id c o). destruct (dc1 id c o) as [[a b]|], (dc2 id c o) as [[a' b']|]; cbn [same_opt]; try easy.
    intros [P Q]. cbn [fst snd] in P, Q. subst b'. generalize (IH b (ss_remove removed (c_name c))).
    destruct (scan_columns dc1 old cs _ _) as [[[[x y] z] d]|], (scan_columns dc2 old cs _ _) as [[[[x' y'] z'] d']|];
      cbn [same_scan]; try easy.
    intros (X & Y & Z & D'). subst. now rewrite !map_app, P, X.
  - generalize (IH id removed).
    destruct (scan_columns dc1 old cs _ _) as [[[[x y] z] d]|], (scan_columns dc2 old cs _ _) as [[[[x' y'] z'] d']|];
      cbn [same_scan]; try easy.
    intros (X & Y & Z & D'). subst. auto.
Qed.
End Same.

(** ** The names of constraints and the author *)
Definition nameless (ch : change) : change :=
  match ch with
  | DropUniqueConstraint _ t => DropUniqueConstraint "" t
  | CreateUniqueConstraint _ t => CreateUniqueConstraint "" t
  | _ => ch
  end.
Definition plain_set (cs : cset) : list change := map nameless (cs_changes cs).

Section Mapped.
Context {D : Type} (g : cset -> D).
(** the mapping forgets the author, and what [h] forgets of a change *)
Lemma emit_same : forall a1 a2 b ch1 ch2 s1 s2, (forall v, g (mkCS v a1 [ch1]) = g (mkCS v a2 [ch2])) ->
  same_pair g s1 s2 -> same_pair g (emit a1 b ch1 s1) (emit a2 b ch2 s2).
Proof.
  intros a1 a2 b ch1 ch2 [l1 i1] [l2 i2] H [P Q]. cbn [fst snd] in P, Q. subst i2. unfold emit.
  destruct b; [|split; auto]. cbv zeta. split; cbn [fst snd]; [|reflexivity]. rewrite !map_app, P. cbn [map]. now rewrite H.
Qed.

Variables a1 a2 : string.
Hypothesis HA : forall v ch, g (mkCS v a1 [ch]) = g (mkCS v a2 [ch]).
Lemma column_same : forall com t id c o, same_pair g (diff_column a1 com t id c o) (diff_column a2 com t id c o).
Proof.
  intros com t id c o. unfold diff_column. cbv zeta.
  repeat (apply emit_same; [intros v; apply HA|]). split; reflexivity.
Qed.
Lemma folds_same : forall {X} (f : X -> change) l s1 s2, same_pair g s1 s2 ->
  same_pair g (fold_left (fun st x => emit a1 true (f x) st) l s1) (fold_left (fun st x => emit a2 true (f x) st) l s2).
Proof.
  intros X f. induction l as [|x l IH]; intros s1 s2 H; cbn [fold_left]; [exact H|].
  apply IH. apply emit_same; [intros v; apply HA|exact H].
Qed.
Variables x1 x2 : string.
Hypothesis HU : forall v n t, g (mkCS v a1 [DropUniqueConstraint (n ++ x1) t]) = g (mkCS v a2 [DropUniqueConstraint (n ++ x2) t]) /\
  g (mkCS v a1 [CreateUniqueConstraint (n ++ x1) t]) = g (mkCS v a2 [CreateUniqueConstraint (n ++ x2) t]).
Lemma table_same : forall com ord id t old, same_opt g (diff_table a1 com x1 ord id t old) (diff_table a2 com x2 ord id t old).
Proof.
  intros com ord id t old. unfold diff_table.
  assert (E : same_pair g (emit a1 (com && negb (String.eqb (t_desc t) (t_desc old))) (SetTableComment t) ([], id))
                          (emit a2 (com && negb (String.eqb (t_desc t) (t_desc old))) (SetTableComment t) ([], id))).
  { apply emit_same; [intros v; apply HA|split; reflexivity]. }
  destruct (emit a1 _ (SetTableComment t) _) as [l i], (emit a2 _ (SetTableComment t) _) as [l' i'].
  destruct E as [P Q]. cbn [fst snd] in P, Q. subst i'. cbv zeta.
  pose proof (columns_same g (fun id c o => Some (diff_column a1 com t id c o)) (fun id c o => Some (diff_column a2 com t id c o))
                (fun id c o => column_same com t id c o) (t_cols old) (with_pos (t_cols t)) i (ss_new (map c_name (t_cols old)))) as S.
  destruct (scan_columns (fun id c o => Some (diff_column a1 com t id c o)) _ _ _ _) as [[[[a b] r] d]|],
           (scan_columns (fun id c o => Some (diff_column a2 com t id c o)) _ _ _ _) as [[[[a' b'] r'] d']|];
    cbn [same_scan] in S; try easy.
  destruct S as (A & B & C & E). subst.
  destruct (find_renamed _ _ d' r') as [renamed removed]. cbn [same_opt].
  apply emit_same; [intros v; apply HU|]. apply emit_same; [intros v; apply HA|].
  match goal with |- same_pair _ (match _ with [] => ?s1 | _ => _ end) (match _ with [] => ?s2 | _ => _ end) =>
    assert (S : same_pair g s1 s2) end.
  { apply (folds_same (fun r0 => RenameColumn t (snd (snd r0)) (fst (snd r0)))).
    apply (folds_same (fun n => DropColumn t n)). apply emit_same; [intros v; apply HU|].
    split; cbn [fst snd]; [now rewrite !map_app, P, A|reflexivity]. }
  destruct (not_renamed d' renamed); [exact S|]. destruct S as [S1 S2]. split; cbn [fst snd]; [exact S1|now rewrite S2].
Qed.
Lemma renamed_same : forall id nw old, same_pair g (rename_table_cs a1 x1 id nw old) (rename_table_cs a2 x2 id nw old).
Proof.
  intros id nw old. unfold rename_table_cs. cbv zeta.
  apply emit_same; [intros v; apply HU|]. apply emit_same; [intros v; apply HA|].
  destruct (Nat.ltb 0 (ss_size (uq_name_set old))); split; cbn [fst snd map]; try reflexivity.
  now rewrite (proj1 (HU _ _ _)).
Qed.
End Mapped.

Lemma get_diff_same : forall {D} (g : cset -> D) ordT ordC f au1 au2 x1 x2 com from to,
  (forall v ch, g (mkCS v (choose_author au1 to) [ch]) = g (mkCS v (choose_author au2 to) [ch])) ->
  (forall v n t, g (mkCS v (choose_author au1 to) [DropUniqueConstraint (n ++ x1) t]) =
                 g (mkCS v (choose_author au2 to) [DropUniqueConstraint (n ++ x2) t]) /\
                 g (mkCS v (choose_author au1 to) [CreateUniqueConstraint (n ++ x1) t]) =
                 g (mkCS v (choose_author au2 to) [CreateUniqueConstraint (n ++ x2) t])) ->
  option_map (map g) (get_diff ordT ordC (mkDiffOption f au1 x1 com) from to) =
  option_map (map g) (get_diff ordT ordC (mkDiffOption f au2 x2 com) from to).
Proof.
  intros D g ordT ordC f au1 au2 x1 x2 com from to HA HU. unfold get_diff. cbn [do_author do_comments do_suffix do_filter].
  apply diff_same.
  - intros. apply table_same; assumption.
  - intros. apply HA.
  - intros. apply renamed_same; assumption.
  - intros. split; cbn [fst snd map]; [now rewrite HA|reflexivity].
Qed.

(** ** What the writers look at *)
Lemma flyway_reads : forall x css, flyway_write x css =
  String.concat "" (map (fun chs => write_lines (flat_map (to_sql x) chs) ++ write_lines [""]) (map cs_changes css)).
Proof. intros x css. unfold flyway_write. rewrite map_map. reflexivity. Qed.

Definition on_values {K V W} (h : V -> W) (m : list (K * list V)) : list (K * list W) := map (fun e => (fst e, map h (snd e))) m.
Lemma get_on_values : forall {V W} (h : V -> W) m k, mm_get String.eqb (on_values h m) k = option_map (map h) (mm_get String.eqb m k).
Proof.
  intros V W h. induction m as [|[k' vs] m IH]; intros k; cbn [on_values map mm_get fst snd option_map]; [reflexivity|].
  destruct (String.eqb k k'); [reflexivity|apply IH].
Qed.
Lemma set_on_values : forall {V W} (h : V -> W) m k vs,
  mm_set String.eqb (on_values h m) k (map h vs) = on_values h (mm_set String.eqb m k vs).
Proof.
  intros V W h. induction m as [|[k' vs'] m IH]; intros k vs; cbn [on_values map mm_set fst snd]; [reflexivity|].
  destruct (String.eqb k k'); cbn [on_values map fst snd]; [reflexivity|].
  f_equal. apply IH.
Qed.
Lemma put_on_values : forall {V W} (h : V -> W) m k x,
  mm_put String.eqb (on_values h m) k (h x) = on_values h (mm_put String.eqb m k x).
Proof.
  intros V W h m k x. unfold mm_put. rewrite get_on_values, <- set_on_values. f_equal.
  destruct (mm_get String.eqb m k); cbn [option_map]; [now rewrite map_app|reflexivity].
Qed.
Definition by_table (l : list (list change)) : mmap (K := string) (V := change) :=
  fold_left (fun m chs => fold_left (fun m ch => mm_put String.eqb m (t_name (dep_table ch)) ch) chs m) l [].
Lemma by_table_plain : forall css, by_table (map plain_set css) = on_values nameless (changes_by_table css).
Proof.
  intros css. unfold by_table, changes_by_table. change (@nil (string * list change)) with (on_values (K := string) nameless []) at 1.
  generalize (@nil (string * list change)) as m. induction css as [|cs css IH]; intros m; cbn [map fold_left]; [reflexivity|].
  rewrite <- IH. f_equal. unfold plain_set. generalize m. clear.
  induction (cs_changes cs) as [|ch l IH]; intros m; cbn [map fold_left]; [reflexivity|].
  rewrite <- IH. f_equal. rewrite <- put_on_values. f_equal. destruct ch; reflexivity.
Qed.
Lemma md_nameless : forall l, map (fun ch => "* " ++ md_line ch) (map nameless l) = map (fun ch => "* " ++ md_line ch) l.
Proof. intros l. rewrite map_map. apply map_ext. intros ch. destruct ch; reflexivity. Qed.
Lemma md_reads : forall ord a b css1 css2, map plain_set css1 = map plain_set css2 -> md_write ord a b css1 = md_write ord a b css2.
Proof.
  intros ord a b css1 css2 H. unfold md_write, md_lines. cbv zeta.
  assert (E : on_values nameless (changes_by_table css1) = on_values nameless (changes_by_table css2)).
  { rewrite <- !by_table_plain, H. reflexivity. }
  assert (K : map fst (changes_by_table css1) = map fst (changes_by_table css2)).
  { apply (f_equal (map fst)) in E. unfold on_values in E. rewrite !map_map in E. exact E. }
  unfold mm_keys. rewrite K. f_equal. do 4 f_equal. apply flat_map_ext. intros k. do 2 f_equal.
  apply (f_equal (fun m => mm_get String.eqb m k)) in E. rewrite !get_on_values in E.
  destruct (mm_get String.eqb (changes_by_table css1) k) as [l1|], (mm_get String.eqb (changes_by_table css2) k) as [l2|];
    cbn [option_map] in E; try discriminate; [|reflexivity].
  injection E as E. rewrite <- (md_nameless l1), <- (md_nameless l2), E. reflexivity.
Qed.

(** ** Options that are ignored *)
Lemma flag_same : forall c n v v' x, differ_only_at n v v' -> x <> n -> flag_string c v x = flag_string c v' x.
Proof. intros c n v v' x H N. unfold flag_string. rewrite (H x N). reflexivity. Qed.
Lemma given_same : forall c n v v', differ_only_at n v v' -> (forall f, In f (command_flags c) -> fl_name f = n -> fl_required f = false) ->
  required_given c v = required_given c v'.
Proof.
  intros c n v v' H R. unfold required_given. induction (command_flags c) as [|f l IH]; cbn [forallb]; [reflexivity|].
  rewrite IH; [|intros g G; apply R; now right]. f_equal.
  destruct (string_dec (fl_name f) n) as [E|E].
  - rewrite (R f (or_introl eq_refl) E). reflexivity.
  - now rewrite (H _ E).
Qed.
Ltac start_ignored :=
  intros w fs v v' H; unfold run;
  rewrite (given_same _ _ v v' H); [|cbn; intros f F E; repeat (destruct F as [F|F]; [subst f; try reflexivity; discriminate|]); destruct F];
  match goal with |- (if ?b then _ else _) = _ => destruct b; [|reflexivity] end; cbn [action].
Ltac same_flags H :=
  unfold flag_bool;
  repeat match goal with
  | |- context [flag_string ?c ?v ?x] =>
      match type of H with differ_only_at _ v _ => rewrite (flag_same c _ v _ x H) by discriminate end
  end.

Lemma dbml_groups : ignored ExportDbml "groups".
Proof. start_ignored. unfold export_dbml_file, export_dbml. same_flags H. reflexivity. Qed.
Lemma graphql_package : ignored GenerateGraphql "graphqlPackage".
Proof. start_ignored. unfold generate_graphql. same_flags H. reflexivity. Qed.
Lemma kt_utc : ignored GenerateKt "useUTC".
Proof. start_ignored. unfold generate_kt. same_flags H. reflexivity. Qed.
Lemma pb_decr : ignored GeneratePb "relationTagDecr".
Proof. start_ignored. unfold generate_pb, pb_cli_option. same_flags H. reflexivity. Qed.
Lemma pb_start : ignored GeneratePb "relationTagStart".
Proof. start_ignored. unfold generate_pb, pb_cli_option. same_flags H. reflexivity. Qed.
Lemma liquibase_suffix : ignored DiffLiquibase "uniqueNameSuffix".
Proof. start_ignored. unfold diff_liquibase, with_schemas. same_flags H. reflexivity. Qed.
Lemma flyway_author : ignored DiffFlyway "author".
Proof.
  start_ignored. unfold diff_flyway, with_schemas. same_flags H.
  unfold with_schema. destruct (load_file w fs _) as [a| | | |]; try reflexivity. destruct (load_file w fs _) as [b| | | |]; try reflexivity.
  assert (E := get_diff_same cs_changes (w_ord_tables w) (w_ord_columns w) (get_table_filter (flag_string DiffFlyway v' "groups"))
     (flag_string DiffFlyway v "author") (flag_string DiffFlyway v' "author")
     (flag_string DiffFlyway v' "uniqueNameSuffix") (flag_string DiffFlyway v' "uniqueNameSuffix")
     (str_in (flag_string DiffFlyway v' "comments") ["1"; "t"; "T"; "TRUE"; "true"; "True"]) a b
     (fun _ _ => eq_refl) (fun _ _ _ => conj eq_refl eq_refl)).
  destruct (get_diff _ _ (mkDiffOption _ (flag_string DiffFlyway v "author") _ _) a b) as [l1|],
           (get_diff _ _ (mkDiffOption _ (flag_string DiffFlyway v' "author") _ _) a b) as [l2|];
    cbn [option_map] in E; try discriminate; [|reflexivity].
  injection E as E. rewrite !flyway_reads, E. reflexivity.
Qed.
Lemma md_same : forall w o1 o2 a b (out : string),
  do_filter o1 = do_filter o2 -> do_comments o1 = do_comments o2 ->
  (match get_diff (w_ord_tables w) (w_ord_columns w) o1 a b with
   | Some css => written out (md_write (w_ord_keys w) a b css) | None => failed end) =
  (match get_diff (w_ord_tables w) (w_ord_columns w) o2 a b with
   | Some css => written out (md_write (w_ord_keys w) a b css) | None => failed end).
Proof.
  intros w [f a1 x1 k] [f' a2 x2 k'] a b out. cbn [do_filter do_comments]. intros -> ->.
  assert (E := get_diff_same plain_set (w_ord_tables w) (w_ord_columns w) f' a1 a2 x1 x2 k' a b
     (fun _ _ => eq_refl) (fun _ _ _ => conj eq_refl eq_refl)).
  destruct (get_diff _ _ (mkDiffOption f' a1 x1 k') a b) as [l1|], (get_diff _ _ (mkDiffOption f' a2 x2 k') a b) as [l2|];
    cbn [option_map] in E; try discriminate; [|reflexivity].
  assert (E' : map plain_set l1 = map plain_set l2) by congruence. now rewrite (md_reads _ a b l1 l2 E').
Qed.
Lemma md_author : ignored DiffMd "author".
Proof.
  start_ignored. unfold diff_md, with_schemas. same_flags H.
  unfold with_schema. destruct (load_file w fs _) as [a| | | |]; try reflexivity. destruct (load_file w fs _) as [b| | | |]; try reflexivity.
  now apply md_same.
Qed.
Lemma md_suffix : ignored DiffMd "uniqueNameSuffix".
Proof.
  start_ignored. unfold diff_md, with_schemas. same_flags H.
  unfold with_schema. destruct (load_file w fs _) as [a| | | |]; try reflexivity. destruct (load_file w fs _) as [b| | | |]; try reflexivity.
  now apply md_same.
Qed.
Lemma dead_ignored : forall c n, In (c, n) dead_options -> ignored c n.
Proof.
  intros c n H. cbn in H. repeat (destruct H as [H|H]; [injection H as <- <-|]); [..|destruct H].
  - exact dbml_groups.
  - exact graphql_package.
  - exact kt_utc.
  - exact pb_decr.
  - exact pb_start.
  - exact flyway_author.
  - exact liquibase_suffix.
  - exact md_author.
  - exact md_suffix.
Qed.

(** ** Options that have an effect *)
Definition sales_old : schema := mkSchema "ann" "shop" "1" [
 mkTable "user" [mkCol "id" "int64" "" 0 0 true true false true "" "" [] None;
   mkCol "created_at" "datetime" "" 0 0 true false false false "" "" [] None;
   mkCol "name" "varchar" "old" 10 0 true false true false "" "" [] None] "users" "g1" "" [];
 mkTable "tb_item" [mkCol "id" "int64" "" 0 0 true true false true "" "" [] None;
   mkCol "owner" "int64" "" 0 0 true false false false "" "" [] (Some (mkRef "user" "id" "n:1"));
   mkCol "code" "varchar" "" 10 0 true false true false "" "" [] None;
   mkCol "lot" "varchar" "" 10 0 true false true false "" "" [] None] "" "g2" "" []].
Definition sales_new : schema := mkSchema "bob" "shop" "2" [
 mkTable "user" [mkCol "id" "int64" "" 0 0 true true false true "" "" [] None;
   mkCol "created_at" "datetime" "" 0 0 true false false false "" "" [] None;
   mkCol "name" "varchar" "new" 20 0 true false false false "" "" [] None;
   mkCol "mail" "varchar" "m" 20 0 true false true false "" "" [] None] "people" "g1" "" [];
 mkTable "extra" [mkCol "id" "int64" "" 0 0 true true false true "" "" [] None;
   mkCol "x" "int64" "note" 0 0 true false true false "" "" [] None] "" "g2" "" []].
Definition sales_old_text := saved_text (to_text isort_tables sales_old).
Definition sales_new_text := saved_text (to_text isort_tables sales_new).
Definition empty_project := "{""ownedElements"":[{""_type"":""ERDDataModel""}]}".
Definition sales_files : files := fun n => alist_find
  [("a.json", sales_old_text); ("b.json", sales_new_text); ("a.sql", "CREATE TABLE T(A INT);"); ("b.sql", "");
   ("a.xlsx", "workbook"); ("b.xlsx", "no sheets"); ("a.mdj", star_text); ("b.mdj", empty_project); ("a.ojson", v1_text);
   ("b.ojson", "{}")] n.
Definition base_options (c : command) : list (string * string) :=
  match c with
  | Init => [("output", "o.json")]
  | ImportMysql => [("input", "a.sql"); ("output", "o.json")]
  | ImportOjson => [("input", "a.ojson"); ("output", "o.json")]
  | ImportStaruml => [("input", "a.mdj"); ("output", "o.json")]
  | ImportXlsx => [("input", "a.xlsx"); ("output", "o.json")]
  | DiffFlyway | DiffLiquibase | DiffMd => [("from", "a.json"); ("to", "b.json"); ("output", "o")]
  | GenerateKt => [("input", "a.json"); ("output", "o"); ("package", "p"); ("reposPackage", "q")]
  | _ => [("input", "a.json"); ("output", "o")]
  end.
Definition other_value (c : command) (n : string) : string :=
  match alist_find
    [("output", "other"); ("from", "b.json"); ("to", "a.json"); ("groups", "g1"); ("author", "zed"); ("version", "9");
     ("excludes", "T"); ("uniqueNameSuffix", "_sfx"); ("embed", "Base:id,name"); ("prefix", "g1:Pre");
     ("removePrefix", "tb_"); ("annotation", "g1:@X"); ("idEntity", "IdEntity"); ("relation", "VRelation");
     ("input", match c with ImportMysql => "b.sql" | ImportOjson => "b.ojson" | ImportStaruml => "b.mdj"
                          | ImportXlsx => "b.xlsx" | _ => "b.json" end)] n
  with Some x => x | None => "true" end.
Fixpoint outputs_eqb (a b : list (string * string)) : bool :=
  match a, b with
  | [], [] => true
  | (x, y) :: a', (x', y') :: b' => String.eqb x x' && String.eqb y y' && outputs_eqb a' b'
  | _, _ => false
  end.
Lemma outputs_refl : forall a, outputs_eqb a a = true.
Proof. induction a as [|[x y] a IH]; cbn [outputs_eqb]; [reflexivity|]. now rewrite !String.eqb_refl, IH. Qed.
Definition is_done (e : ending) : bool := match e with Done => true | _ => false end.
Definition shows_effect (c : command) (n : string) : bool :=
  let o := run sample_world sales_files c (option_values (base_options c)) in
  let o' := run sample_world sales_files c (option_values ((n, other_value c n) :: base_options c)) in
  is_done (snd o) && is_done (snd o') && negb (outputs_eqb (fst o) (fst o')).
Lemma sample_real : real_world sample_world.
Proof.
  split; [exact isort_sorts|]. split; [exact isort_v1_sorts|].
  repeat split; intros; intros l; reflexivity.
Qed.
Lemma shown_effect : forall c n, shows_effect c n = true -> has_effect c n.
Proof.
  intros c n H. unfold shows_effect in H. cbv zeta in H. apply andb_true_iff in H as [H D].
  apply andb_true_iff in H as [A B].
  exists sample_world, sales_files, (option_values (base_options c)), (option_values ((n, other_value c n) :: base_options c)).
  split; [exact sample_real|]. split.
  - intros x N. unfold option_values. cbn [alist_find]. destruct (String.eqb x n) eqn:E; [|reflexivity].
    apply String.eqb_eq in E. contradiction.
  - assert (E : forall e, is_done e = true -> e = Done) by (intros []; cbn; congruence).
    split; [now apply E|]. split; [now apply E|].
    intros E'. rewrite E', outputs_refl in D. discriminate.
Qed.
Definition commands : list command :=
  [Init; ImportMysql; ImportOjson; ImportStaruml; ImportXlsx; ExportDbml; ExportQuickdbd; ExportMysql; ExportXlsx;
   GenerateGorm; GenerateGraphql; GenerateKt; GenerateLiquibase; GeneratePlantuml; GeneratePb; GenerateSqlalchemy;
   DiffFlyway; DiffLiquibase; DiffMd].
Definition command_eqb (a b : command) : bool :=
  list_eqb String.eqb (command_words a) (command_words b).
Definition dead (c : command) (n : string) : bool :=
  existsb (fun d => command_eqb (fst d) c && String.eqb (snd d) n) dead_options.
Lemma all_shown : forallb (fun c => forallb (fun f => dead c (fl_name f) || shows_effect c (fl_name f)) (command_flags c)) commands = true.
Proof. vm_compute. reflexivity. Qed.
Lemma command_in : forall c, In c commands.
Proof. intros c. destruct c; cbn; repeat (first [left; reflexivity|right]). Qed.
Lemma command_eqb_eq : forall a b, command_eqb a b = true -> a = b.
Proof. intros a b. destruct a, b; vm_compute; intros; try reflexivity; discriminate. Qed.
Lemma live_effect : forall c f, In f (command_flags c) -> ~ In (c, fl_name f) dead_options -> has_effect c (fl_name f).
Proof.
  intros c f F D. apply shown_effect. pose proof all_shown as A. rewrite forallb_forall in A.
  specialize (A c (command_in c)). rewrite forallb_forall in A. specialize (A f F).
  apply orb_true_iff in A as [A|A]; [|exact A]. exfalso. apply D. unfold dead in A. apply existsb_exists in A as ([c' n] & I & E).
  cbn [fst snd] in E. apply andb_true_iff in E as [E1 E2]. apply command_eqb_eq in E1. apply String.eqb_eq in E2. now subst.
Qed.

(** ** The declarations *)
Lemma documented_declared : forall c n k e, In (n, k, e) (documented_options c) ->
  exists f, In f (command_flags c) /\ fl_name f = n /\ incl k (fl_aliases f) /\ fl_env f = e.
Proof.
  intros c n k e H.
  assert (A : forallb (fun c => forallb (fun o : opt => let '(n, k, e) := o in
     existsb (fun f => String.eqb (fl_name f) n && forallb (fun x => str_in x (fl_aliases f)) k && String.eqb (fl_env f) e)
       (command_flags c)) (documented_options c)) commands = true) by (vm_compute; reflexivity).
  rewrite forallb_forall in A. specialize (A c (command_in c)). rewrite forallb_forall in A. specialize (A _ H). cbn beta iota in A.
  apply existsb_exists in A as (f & F & E). apply andb_true_iff in E as [E E3]. apply andb_true_iff in E as [E1 E2].
  exists f. split; [exact F|]. split; [now apply String.eqb_eq|]. split; [|now apply String.eqb_eq].
  intros x X. rewrite forallb_forall in E2. apply str_in_iff. now apply E2.
Qed.
Lemma words_distinct : forall c, NoDup (option_words c).
Proof.
  intros c. destruct c; cbn; repeat constructor; cbn; intuition discriminate.
Qed.
Lemma documented_live : forall c n k e, In (n, k, e) (documented_options c) -> ~ In (c, n) dead_options -> has_effect c n.
Proof.
  intros c n k e H D. apply documented_declared in H as (f & F & N & _). subst n. now apply live_effect.
Qed.
Lemma dead_documented : exists c n k e, In (n, k, e) (documented_options c) /\ ignored c n.
Proof.
  exists GeneratePb, "relationTagStart", [], "OCTOPUS_RELATION_TAG_START". split; [|exact pb_start].
  cbn. repeat (first [left; reflexivity|right]).
Qed.
Lemma ignored_no_effect : forall c n, ignored c n -> ~ has_effect c n.
Proof. intros c n I (w & fs & v & v' & _ & D & _ & _ & N). apply N. now rewrite (I w fs v v' D). Qed.
Lemma switch_refuted : exists c n f, In (c, n) documented_switches /\ In f (command_flags c) /\ fl_name f = n /\ fl_bool f = false.
Proof.
  exists GenerateSqlalchemy, "useUTC", (str_flag "useUTC" ["t"] "OCTOPUS_USE_UTC"). repeat split; cbn; repeat (first [left; reflexivity|right]).
Qed.
Lemma switch_others : forall c n f, In (c, n) documented_switches -> In f (command_flags c) -> fl_name f = n ->
  c <> GenerateSqlalchemy -> fl_bool f = true.
Proof.
  intros c n f H F N S. cbn in H.
  repeat (destruct H as [H|H]; [injection H as <- <-; cbn in F; repeat (destruct F as [F|F]; [subst f; cbn in N |- *; try reflexivity; try discriminate; congruence|]); destruct F|]).
  destruct H.
Qed.
