(** Concrete comparisons in both directions *)
From Coq Require Import String Ascii List NArith Arith Bool Sorted.
From Verif.Model Require Import GoString Util Octopus DiffCore Diff.
From Verif.Spec Require Import Order OctopusSpec DiffSpec ReverseSpec.
From Verif.Spec Require ServerSpec.
From Verif.Proofs Require Import StringLemmas ListLemmas OctopusProofs DiffFacts ReverseProofs ServerProofs.
Import ListNotations.
Local Open Scope string_scope.

Definition vx_col (n ty : string) (size : N) (nn pk uq : bool) (d : string) := mkCol n ty "" size 0 nn pk uq false d "" [] None.
Definition vx_table (n g : string) (cs : list column) := mkTable n cs "" g "" [].
Definition vx_id := vx_col "id" "int64" 0 true true false "".
Definition vx_text (n : string) := vx_col n "varchar" 40 false false false "".
Definition vx_code := vx_col "code" "int" 0 false false true "".
Definition vx_opt := mkDiffOption None "" "_uq" true.

(** a dropped table, a new one, two renamed ones of the same columns, of which one is unique, and a table with two renamed
    columns, a changed key, a new unique constraint and a changed type *)
Definition vx_from := mkSchema "me" "s" "1"
  [vx_table "first" "" [vx_id; vx_code]; vx_table "old" "" [vx_id]; vx_table "second" "" [vx_id; vx_code];
   vx_table "user" "" [vx_id; vx_text "a"; vx_text "b"; vx_col "age" "int" 0 false false false "0"]].
Definition vx_to := mkSchema "me" "s" "2"
  [vx_table "new" "" [vx_id; vx_text "n"]; vx_table "one" "" [vx_id; vx_code]; vx_table "two" "" [vx_id; vx_code];
   vx_table "user" "" [vx_col "id" "int64" 0 true false true ""; vx_text "c"; vx_text "d"; vx_col "age" "long" 0 true false false "1"]].

(** a test that implies [new_in_order] *)
Fixpoint in_order_b {A} (name : A -> string) (unlike : A -> A -> bool) (old : list string) (l : list A) : bool :=
  match l with
  | [] => true
  | x :: r => forallb (fun y => (existsb (String.eqb (name x)) old || existsb (String.eqb (name y)) old || unlike x y
                                 || str_ltb (name x) (name y))%bool) r && in_order_b name unlike old r
  end.
Lemma in_order_ok : forall A (name : A -> string) alike unlike old l, (forall x y, unlike x y = true -> ~ alike x y) ->
  in_order_b name unlike old l = true -> new_in_order name alike old l.
Proof.
  intros A name alike unlike old l U. unfold new_in_order. induction l as [|x r IH]; cbn [in_order_b]; intros H; [constructor|].
  apply andb_true_iff in H. destruct H as [H R]. constructor; [|auto]. apply Forall_forall. intros y Y N N' L.
  rewrite forallb_forall in H. specialize (H y Y). rewrite !orb_true_iff in H. destruct H as [[[H|H]|H]|H].
  - apply existsb_exists in H. destruct H as (z & Z & E). apply String.eqb_eq in E. subst z. contradiction.
  - apply existsb_exists in H. destruct H as (z & Z & E). apply String.eqb_eq in E. subst z. contradiction.
  - now apply U in H.
  - now apply str_ltb_lt.
Qed.
Definition orderly_b (from to : schema) : bool :=
  in_order_b t_name (fun a b => negb (Nat.eqb (List.length (t_cols a)) (List.length (t_cols b)))) (map t_name (s_tables from)) (s_tables to) &&
  forallb (fun old => forallb (fun t => negb (String.eqb (t_name old) (t_name t)) ||
    in_order_b c_name (fun a b => negb (String.eqb (c_type a) (c_type b))) (map c_name (t_cols old)) (t_cols t)) (s_tables to)) (s_tables from).
Lemma orderly_ok : forall comments from to, orderly_b from to = true -> orderly comments from to.
Proof.
  intros comments from to H. apply andb_true_iff in H. destruct H as [H C]. split.
  - eapply in_order_ok; [|exact H]. intros x y N E. cbn beta in N, E. rewrite E, Nat.eqb_refl in N. discriminate.
  - intros old t O T E. rewrite forallb_forall in C. specialize (C old O). rewrite forallb_forall in C. specialize (C t T).
    cbn beta in C. rewrite E, String.eqb_refl in C. cbn [negb orb] in C. eapply in_order_ok; [|exact C]. intros x y N S. cbn beta in N.
    assert (c_type x = c_type y) as F by (unfold same_attributes in S; tauto). rewrite F, String.eqb_refl in N. discriminate.
Qed.

Lemma vx_forth : orderly true vx_from vx_to.
Proof. apply orderly_ok. vm_compute. reflexivity. Qed.
Lemma vx_back : orderly true vx_to vx_from.
Proof. apply orderly_ok. vm_compute. reflexivity. Qed.
Lemma vx_distinct : distinct_names vx_from /\ distinct_names vx_to.
Proof.
  split; (split; [apply distinctb_iff; reflexivity|]); intros t T; cbn [s_tables vx_from vx_to In] in T;
    repeat (destruct T as [<-|T]; [apply distinctb_iff; reflexivity|]); contradiction.
Qed.

Definition vx_changes (from to : schema) : list change :=
  match get_diff (fun l => l) (fun _ l => l) vx_opt from to with Some css => all_changes css | None => [] end.
Definition vx_kind (ch : change) : string :=
  match ch with
  | CreateTable t => "create " ++ t_name t
  | DropTable t => "drop " ++ t_name t
  | RenameTable a b => "rename " ++ t_name a ++ " to " ++ t_name b
  | UpdatePrimaryKey a _ => "key of " ++ t_name a
  | DropUniqueConstraint n _ => "drop constraint " ++ n
  | CreateUniqueConstraint n _ => "create constraint " ++ n
  | SetTableComment t => "comment of " ++ t_name t
  | AddColumn t c => "add " ++ t_name t ++ "." ++ c_name c
  | DropColumn t n => "drop " ++ t_name t ++ "." ++ n
  | RenameColumn t c d => "rename " ++ t_name t ++ "." ++ c_name c ++ " to " ++ c_name d
  | ChangeColumnType t c d => "type of " ++ t_name t ++ "." ++ c_name c ++ " from " ++ c_type c ++ " to " ++ c_type d
  | SetColumnComment t c => "comment of " ++ t_name t ++ "." ++ c_name c
  | SetNotNullConstraint t c => (if c_notnull c then "not null " else "null ") ++ t_name t ++ "." ++ c_name c
  | SetAutoIncrement t c => (if c_autoinc c then "auto " else "no auto ") ++ t_name t ++ "." ++ c_name c
  | SetDefaultValue t c => "default " ++ t_name t ++ "." ++ c_name c ++ " " ++ c_default c
  end.

Lemma reverse_case :
  orderly true vx_from vx_to /\ orderly true vx_to vx_from /\ distinct_names vx_from /\ distinct_names vx_to /\
  map vx_kind (vx_changes vx_from vx_to) =
    ["type of user.age from int to long"; "not null user.age"; "default user.age 1";
     "rename user.a to c"; "rename user.b to d"; "key of user"; "create constraint user_uq"; "drop old";
     "drop constraint first_uq"; "rename first to one"; "create constraint one_uq";
     "drop constraint second_uq"; "rename second to two"; "create constraint two_uq"; "create new"] /\
  map vx_kind (vx_changes vx_to vx_from) =
    ["type of user.age from long to int"; "null user.age"; "default user.age 0"; "drop constraint user_uq";
     "rename user.c to a"; "rename user.d to b"; "key of user"; "drop new";
     "drop constraint one_uq"; "rename one to first"; "create constraint first_uq";
     "drop constraint two_uq"; "rename two to second"; "create constraint second_uq"; "create old"].
Proof.
  split; [exact vx_forth|]. split; [exact vx_back|]. split; [exact (proj1 vx_distinct)|]. split; [exact (proj2 vx_distinct)|].
  split; vm_compute; reflexivity.
Qed.

(** ** What has no opposite *)
Definition vx_two := mkSchema "" "" "" [vx_table "t" "" [vx_text "a"; vx_text "b"]].
Definition vx_one := mkSchema "" "" "" [vx_table "t" "" [vx_text "a"]].
Definition vx_swapped := mkSchema "" "" "" [vx_table "t" "" [vx_text "y"; vx_text "x"]].
(** tables of two groups: sorted by group first *)
Definition vx_ab := mkSchema "" "" "" [vx_table "a" "g" [vx_id]; vx_table "b" "h" [vx_id]].
Definition vx_yx := mkSchema "" "" "" [vx_table "y" "g" [vx_id]; vx_table "x" "h" [vx_id]].

Lemma single_distinct : forall s t, s_tables s = [t] -> ServerSpec.distinctb (map c_name (t_cols t)) = true -> distinct_names s.
Proof.
  intros s t E D. split; rewrite E; [apply distinctb_iff; reflexivity|]. intros u [<-|[]]. now apply distinctb_iff.
Qed.

Lemma sets_of : forall from to l, option_map all_changes (get_diff (fun l => l) (fun _ l => l) vx_opt from to) = Some l ->
  exists css, get_diff (fun l => l) (fun _ l => l) vx_opt from to = Some css /\ all_changes css = l.
Proof. intros from to l. destruct get_diff as [css|]; [|discriminate]. cbn. intros [= <-]. eauto. Qed.

Lemma drop_one_way : exists from to t k, one_way vx_opt from to (DropColumn t k).
Proof.
  exists vx_two, vx_one, (vx_table "t" "" [vx_text "a"]), "b".
  split; [eapply single_distinct; reflexivity|]. split; [eapply single_distinct; reflexivity|].
  split; [repeat constructor|]. split; [repeat constructor|].
  destruct (sets_of vx_two vx_one [DropColumn (vx_table "t" "" [vx_text "a"]) "b"]) as (css & C & A); [vm_compute; reflexivity|].
  destruct (sets_of vx_one vx_two []) as (css' & C' & A'); [vm_compute; reflexivity|].
  exists css, css'. split; [exact C|]. split; [exact C'|]. rewrite A, A'. split; [now left|]. intros ch' [].
Qed.

Lemma rename_one_way : exists from to a b, one_way vx_opt from to (RenameTable a b).
Proof.
  exists vx_ab, vx_yx, (vx_table "a" "g" [vx_id]), (vx_table "y" "g" [vx_id]).
  split. { split; [apply distinctb_iff; reflexivity|]. intros t [<-|[<-|[]]]; apply distinctb_iff; reflexivity. }
  split. { split; [apply distinctb_iff; reflexivity|]. intros t [<-|[<-|[]]]; apply distinctb_iff; reflexivity. }
  split; [repeat constructor|]. split; [repeat constructor|].
  destruct (sets_of vx_ab vx_yx [RenameTable (vx_table "a" "g" [vx_id]) (vx_table "y" "g" [vx_id]);
     RenameTable (vx_table "b" "h" [vx_id]) (vx_table "x" "h" [vx_id])]) as (css & C & A); [vm_compute; reflexivity|].
  destruct (sets_of vx_yx vx_ab [RenameTable (vx_table "x" "h" [vx_id]) (vx_table "a" "g" [vx_id]);
     RenameTable (vx_table "y" "g" [vx_id]) (vx_table "b" "h" [vx_id])]) as (css' & C' & A'); [vm_compute; reflexivity|].
  exists css, css'. split; [exact C|]. split; [exact C'|]. rewrite A, A'. split; [now left|].
  intros ch' [<-|[<-|[]]] O; inversion O.
Qed.

Lemma rename_column_one_way : exists from to t c d, one_way vx_opt from to (RenameColumn t c d).
Proof.
  exists vx_two, vx_swapped, (vx_table "t" "" [vx_text "y"; vx_text "x"]), (vx_text "a"), (vx_text "y").
  split; [eapply single_distinct; reflexivity|]. split; [eapply single_distinct; reflexivity|].
  split; [repeat constructor|]. split; [repeat constructor|].
  destruct (sets_of vx_two vx_swapped [RenameColumn (vx_table "t" "" [vx_text "y"; vx_text "x"]) (vx_text "a") (vx_text "y");
     RenameColumn (vx_table "t" "" [vx_text "y"; vx_text "x"]) (vx_text "b") (vx_text "x")]) as (css & C & A); [vm_compute; reflexivity|].
  destruct (sets_of vx_swapped vx_two [RenameColumn (vx_table "t" "" [vx_text "a"; vx_text "b"]) (vx_text "x") (vx_text "a");
     RenameColumn (vx_table "t" "" [vx_text "a"; vx_text "b"]) (vx_text "y") (vx_text "b")]) as (css' & C' & A'); [vm_compute; reflexivity|].
  exists css, css'. split; [exact C|]. split; [exact C'|]. rewrite A, A'. split; [now left|].
  intros ch' [<-|[<-|[]]] O; inversion O.
Qed.
