(** Adding columns to the tables of a schema: change logs (C144) *)
From Coq Require Import String Ascii List NArith Bool Lia.
From Verif.Model Require Import GoString Util Octopus Common DiffCore Liquibase.
From Verif.Spec Require Import LocalSpec WidenSpec WidenSources WidenLog.
From Verif.Proofs Require Import LocalProofs WidenProofs WidenCases.
Import ListNotations.
Local Open Scope string_scope.

Section WithFloat.
Variable float : string -> bool.

Lemma columns_widen : forall comments p u cs cs', sub cs cs' -> forall l', map_lq_columns float comments p u cs' = Some l' ->
  exists l, map_lq_columns float comments p u cs = Some l /\ sub l l'.
Proof.
  intros comments p u cs cs' S. induction S as [|c cs cs' S IH|c cs cs' S IH]; intros l' E; cbn [map_lq_columns] in *.
  - injection E as <-. exists []. split; [reflexivity|constructor].
  - destruct (new_lq_column float c p u) as [lc|]; [|discriminate]. destruct (map_lq_columns float comments p u cs') as [r'|]; [|discriminate].
    destruct (IH r' eq_refl) as [r [-> Q]]. injection E as <-. eexists. split; [reflexivity|now constructor].
  - destruct (new_lq_column float c p u) as [lc|]; [|discriminate]. destruct (map_lq_columns float comments p u cs') as [r'|]; [|discriminate].
    destruct (IH r' eq_refl) as [r [-> Q]]. injection E as <-. exists r. split; [reflexivity|now constructor].
Qed.
Lemma set_of_filter : forall (p : column -> bool) cs s,
  fold_left (fun s c => if p c then ss_add s (c_name c) else s) cs s = fold_left (fun s c => ss_add s (c_name c)) (filter p cs) s.
Proof. intros p cs. induction cs as [|c cs IH]; intros s; [reflexivity|]. cbn [fold_left filter]. rewrite IH. now destruct (p c). Qed.
Lemma same_set : forall x, cset_adds x x.
Proof. intros x. repeat split. induction (lq_changes x); constructor; [constructor|assumption]. Qed.

Definition kept (t t' : table) : Prop := widened_table t t' /\ key_kept t t' /\ unique_kept t t'.
Lemma create_widens : forall author suffix comments id t t' css' id', kept t t' ->
  new_create_table_cs float author suffix comments id t' = Some (css', id') ->
  exists css, new_create_table_cs float author suffix comments id t = Some (css, id') /\ Forall2 cset_adds css css'.
Proof.
  intros author suffix comments id t t' css' id' [[N [_ [_ [D [_ S]]]]] [K U]] H. unfold new_create_table_cs in *. cbv zeta in *.
  assert (P : pk_name_set t' = pk_name_set t) by (unfold pk_name_set; rewrite !set_of_filter; f_equal; exact K).
  assert (Q : uq_name_set t' = uq_name_set t) by (unfold uq_name_set; rewrite !set_of_filter; f_equal; exact U).
  rewrite P, Q, N, D in H. destruct (map_lq_columns float comments _ _ (t_cols t')) as [l'|] eqn:E; [|discriminate].
  destruct (columns_widen _ _ _ _ _ S _ E) as [l [-> W]]. unfold lq_emit in *.
  assert (A : forall i x, cset_adds (mkLqCS i author x [LqCreateTable (t_name t) (t_desc t) l]) (mkLqCS i author x [LqCreateTable (t_name t) (t_desc t) l'])).
  { intros i x. repeat split. constructor; [now constructor|constructor]. }
  destruct (Nat.leb 2 (ss_size (pk_name_set t))), (Nat.leb 1 (ss_size (uq_name_set t))); cbn [fst snd app] in *;
    injection H as <- <-; eexists; (split; [reflexivity|]); repeat (constructor; [apply A || apply same_set|]); constructor.
Qed.
Lemma tables_widen : forall author suffix comments g ts ts', Forall2 kept ts ts' -> forall id r',
  generate_tables float author suffix comments (get_table_filter g) ts' id = Some r' ->
  exists r, generate_tables float author suffix comments (get_table_filter g) ts id = Some r /\ Forall2 cset_adds r r'.
Proof.
  intros author suffix comments g ts ts' F. induction F as [|t t' ts ts' Q F IH]; intros id r' H; cbn [generate_tables] in *.
  - injection H as <-. exists []. split; [reflexivity|constructor].
  - assert (G : passes (get_table_filter g) t' = passes (get_table_filter g) t) by now apply passes_group, Q. rewrite G in H.
    destruct (passes (get_table_filter g) t); cbn [negb] in *; [|auto].
    destruct (new_create_table_cs float author suffix comments (bump_major id) t') as [[css' id']|] eqn:E; [|discriminate].
    destruct (create_widens _ _ _ _ _ _ _ _ Q E) as [css [-> A]].
    destruct (generate_tables float author suffix comments (get_table_filter g) ts' id') as [q'|] eqn:R; [|discriminate].
    destruct (IH _ _ R) as [q [-> B]]. injection H as <-. eexists. split; [reflexivity|now apply Forall2_app].
Qed.
Lemma log_widens : forall o g s s' r', lo_filter o = get_table_filter g -> widened s s' ->
  Forall2 key_kept (s_tables s) (s_tables s') -> Forall2 unique_kept (s_tables s) (s_tables s') ->
  lq_generate float o s' = Some r' -> exists r, lq_generate float o s = Some r /\ Forall2 cset_adds r r'.
Proof.
  intros o g s s' r' G [A [_ [_ W]]] K U H. unfold lq_generate in *. rewrite G, A in *. revert H. apply tables_widen.
  apply (Forall2_both widened_table (fun t t' => key_kept t t' /\ unique_kept t t')); [exact W|]. now apply Forall2_both.
Qed.
End WithFloat.

(** ** Columns whose addition changes other things *)

Definition wl_opt : lq_option := mkLqOption None "" "_uq" true.
Definition wl_log (s : schema) : option (list lq_cset) := lq_generate (fun _ => true) wl_opt s.
Definition wl_uq (n : string) : column := mkCol n "varchar" "" 40 0 true false true false "" "" [] None.


Lemma sub_head_not : forall {A} (x : A) l l', ~ In x l' -> ~ sub (x :: l) l'.
Proof. intros A x l l' N S. apply N. apply (sub_in (x :: l)); [exact S|now left]. Qed.

(** a second column of the key: the first one is no longer marked in the table *)
Lemma log_key_not : exists s s' r r', widened s s' /\ Forall2 unique_kept (s_tables s) (s_tables s') /\
  wl_log s = Some r /\ wl_log s' = Some r' /\ ~ log_adds r r'.
Proof.
  exists (wd_schema [] [wd_id]), (wd_schema [] [wd_id; wd_part]). eexists. eexists. split; [|split; [|split; [|split]]].
  - apply wd_widened; added.
  - constructor; [|constructor; [|constructor]]; reflexivity.
  - vm_compute. reflexivity.
  - vm_compute. reflexivity.
  - intros A. destruct (A _ (or_intror (or_introl eq_refl))) as [x' [I [E [_ [_ F]]]]]. cbn in I.
    repeat (destruct I as [<-|I]); try destruct I; cbn in E; try discriminate; cbn in F; inversion F as [|? ? ? ? C _]; subst; inversion C; subst;
    match goal with S : sub _ _ |- _ => revert S; apply sub_head_not; cbn; intuition discriminate end.
Qed.
(** a second unique column: the first one is no longer marked in the table *)
Lemma log_unique_not : exists s s' r r', widened s s' /\ Forall2 key_kept (s_tables s) (s_tables s') /\
  wl_log s = Some r /\ wl_log s' = Some r' /\ ~ log_adds r r'.
Proof.
  exists (wd_schema [] [wl_uq "a"]), (wd_schema [] [wl_uq "a"; wl_uq "b"]). eexists. eexists. split; [|split; [|split; [|split]]].
  - apply wd_widened; added.
  - constructor; [|constructor; [|constructor]]; reflexivity.
  - vm_compute. reflexivity.
  - vm_compute. reflexivity.
  - intros A. destruct (A _ (or_intror (or_introl eq_refl))) as [x' [I [E [_ [_ F]]]]]. cbn in I.
    repeat (destruct I as [<-|I]); try destruct I; cbn in E; try discriminate; cbn in F; inversion F as [|? ? ? ? C _]; subst; inversion C; subst;
    match goal with S : sub _ _ |- _ => revert S; apply sub_head_not; cbn; intuition discriminate end.
Qed.
(** no change set of a widened table stays as it was *)
Lemma log_changed : exists s s' r r', widened s s' /\ Forall2 key_kept (s_tables s) (s_tables s') /\ Forall2 unique_kept (s_tables s) (s_tables s') /\
  wl_log s = Some r /\ wl_log s' = Some r' /\ ~ incl r r'.
Proof.
  exists (wd_schema [] [wd_id]), (wd_schema [] [wd_id; wd_mail]). eexists. eexists. split; [|split; [|split; [|split; [|split]]]].
  - apply wd_widened; added.
  - constructor; [|constructor; [|constructor]]; reflexivity.
  - constructor; [|constructor; [|constructor]]; reflexivity.
  - vm_compute. reflexivity.
  - vm_compute. reflexivity.
  - intros A. specialize (A _ (or_intror (or_introl eq_refl))). cbn in A. intuition discriminate.
Qed.
