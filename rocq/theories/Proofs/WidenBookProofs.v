(** Adding columns to the tables of a schema: workbooks (C145) *)
From Coq Require Import String Ascii List NArith Bool Lia.
From Verif.Model Require Import GoString Util Octopus Common Xlsx.
From Verif.Spec Require Import LocalSpec WidenSpec WidenBook.
From Verif.Proofs Require Import StringLemmas ListLemmas LocalProofs WidenProofs.
Import ListNotations.
Local Open Scope string_scope.

Lemma rows_widen : forall un g n ts ts', Forall2 widened_table ts ts' -> forall i,
  sub (tables_rows un g n i ts) (tables_rows un g n i ts').
Proof.
  intros un g n ts ts' F. induction F as [|t t' ts ts' W F IH]; intros i; cbn [tables_rows]; [constructor|].
  destruct W as [N [G [C [D [I S]]]]]. apply sub_app; [|apply IH]. rewrite G. destruct (String.eqb (t_group t) g); [|constructor].
  assert (T : table_row t' = table_row t) by (unfold table_row; now rewrite N, C, D). rewrite T, I. constructor.
  apply sub_app; [now apply sub_map|apply sub_refl].
Qed.
Lemma groups_widen : forall s s', widened s s' -> groups s' = groups s.
Proof.
  intros s s' [_ [_ [_ F]]]. unfold groups. f_equal. f_equal. f_equal.
  induction F as [|t t' ts ts' W F IH]; [reflexivity|]. cbn [map]. f_equal; [|exact IH]. apply W.
Qed.
Lemma both_lengths : forall {A B} (R : A -> B -> Prop) l l', Forall2 R l l' -> length l' = length l.
Proof. intros A B R l l' F. induction F; cbn [length]; congruence. Qed.
Lemma group_widens : forall un s s' g, widened s s' -> sub (group_rows un s g) (group_rows un s' g).
Proof.
  intros un s s' g W. unfold group_rows. constructor. destruct W as [_ [_ [_ F]]].
  rewrite (both_lengths _ _ _ F). now apply rows_widen.
Qed.
Lemma book_names : forall wb wb', book_adds wb wb' -> map fst wb' = map fst wb.
Proof. intros wb wb' F. induction F as [|x y l l' [E _] F IH]; [reflexivity|]. cbn [map]. now f_equal. Qed.
Lemma sheets_widen : forall name_ok un s s' gs, widened s s' -> forall wb wb', book_adds wb wb' ->
  match add_group_sheets name_ok un s gs wb, add_group_sheets name_ok un s' gs wb' with
  | Some r, Some r' => book_adds r r'
  | None, None => True
  | _, _ => False
  end.
Proof.
  intros name_ok un s s' gs W. induction gs as [|g gs IH]; intros wb wb' B; cbn [add_group_sheets]; [exact B|].
  unfold add_sheet. cbn [fst]. rewrite (book_names _ _ B).
  destruct (str_in (sheet_name g) (map fst wb) || negb (name_ok (sheet_name g))); [exact I|].
  apply IH. apply Forall2_app; [exact B|]. constructor; [|constructor]. split; [reflexivity|]. cbn [snd]. now apply group_widens.
Qed.
Lemma book_both : forall name_ok un s s', widened s s' ->
  match export_xlsx name_ok un s, export_xlsx name_ok un s' with
  | Some r, Some r' => book_adds r r'
  | None, None => True
  | _, _ => False
  end.
Proof.
  intros name_ok un s s' W. unfold export_xlsx, add_sheet. cbn [fst map]. rewrite (groups_widen _ _ W).
  destruct (str_in "Meta" [] || negb (name_ok "Meta")); [exact I|]. apply sheets_widen; [exact W|].
  assert (M : meta_rows s' = meta_rows s) by (unfold meta_rows; destruct W as [A [N [V _]]]; now rewrite A, N, V).
  rewrite M. constructor; [|constructor]. split; [reflexivity|apply sub_refl].
Qed.
Lemma book_widens : forall name_ok un s s' wb, widened s s' -> export_xlsx name_ok un s = Some wb ->
  exists wb', export_xlsx name_ok un s' = Some wb' /\ book_adds wb wb'.
Proof.
  intros name_ok un s s' wb W E. pose proof (book_both name_ok un _ _ W) as H. rewrite E in H.
  destruct (export_xlsx name_ok un s') as [wb'|]; [|contradiction]. now exists wb'.
Qed.
Lemma book_fails : forall name_ok un s s', widened s s' -> export_xlsx name_ok un s = None -> export_xlsx name_ok un s' = None.
Proof.
  intros name_ok un s s' W E. pose proof (book_both name_ok un _ _ W) as H. rewrite E in H.
  now destruct (export_xlsx name_ok un s').
Qed.
