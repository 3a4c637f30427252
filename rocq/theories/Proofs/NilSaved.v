(** nil slices of saved files (C148) *)
From Coq Require Import String Ascii List NArith Bool.
From Verif.Model Require Import GoString Util Octopus DiffCore Diff Liquibase Json NilValues.
From Verif.Spec Require Import NilListSpec.
From Verif.Proofs Require Import OctopusProofs DiffCoreProofs NilListProofs.
Import ListNotations.
Local Open Scope string_scope.

Definition scan {B} (field : string) (f : json -> B) (ms : list (string * json)) (acc : B) : B :=
  fold_left (fun b m => if key_is field (fst m) then f (snd m) else b) ms acc.
Lemma scan_app : forall B field (f : json -> B) a b acc, scan field f (a ++ b) acc = scan field f b (scan field f a acc).
Proof. intros. apply fold_left_app. Qed.
Lemma scan_str : forall B field (f : json -> B) k v acc, key_is field k = false -> scan field f (om_str k v) acc = acc.
Proof. intros B field f k v acc H. unfold om_str. destruct v; [reflexivity|]. cbn. now rewrite H. Qed.
Lemma scan_num : forall B field (f : json -> B) k v acc, key_is field k = false -> scan field f (om_num k v) acc = acc.
Proof. intros B field f k v acc H. unfold om_num. destruct (v =? 0)%N; [reflexivity|]. cbn. now rewrite H. Qed.
Lemma scan_bool : forall B field (f : json -> B) k v acc, key_is field k = false -> scan field f (om_bool k v) acc = acc.
Proof. intros B field f k v acc H. unfold om_bool. destruct v; [|reflexivity]. cbn. now rewrite H. Qed.
Lemma scan_arr : forall B field (f : json -> B) k l acc, key_is field k = false -> scan field f (om_arr k l) acc = acc.
Proof. intros B field f k l acc H. unfold om_arr. destruct l; [reflexivity|]. cbn. now rewrite H. Qed.
Lemma scan_this : forall B field (f : json -> B) l acc, key_is field field = true ->
  scan field f (om_arr field l) acc = match l with [] => acc | _ => f (JArr l) end.
Proof. intros B field f l acc H. unfold om_arr. destruct l; [reflexivity|]. cbn. now rewrite H. Qed.

Ltac skips := rewrite ?scan_app; repeat (first [rewrite scan_str by reflexivity | rewrite scan_num by reflexivity
  | rewrite scan_bool by reflexivity | rewrite scan_arr by reflexivity]); rewrite ?scan_this by reflexivity.

Lemma nil_scan : forall field ms, nil_member field ms = scan field (fun j => match j with JNull => true | _ => false end) ms true.
Proof. reflexivity. Qed.
Lemma elements_scan : forall field ms, json_elements field ms = scan field (fun j => match j with JArr l => l | _ => [] end) ms [].
Proof. reflexivity. Qed.

Definition no_values (c : column) : bool := match c_values c with [] => true | _ => false end.
Lemma column_saved : forall c, nil_member "values" (json_members (enc_column c)) = no_values c.
Proof.
  intros c. unfold enc_column. cbn [json_members]. rewrite nil_scan. rewrite scan_app.
  change (scan "values" (fun j => match j with JNull => true | _ => false end) [("name", JStr (c_name c)); ("type", JStr (c_type c))] true) with true.
  skips. unfold no_values. destruct (c_ref c); destruct (c_values c); reflexivity.
Qed.
Lemma table_saved : forall t, table_nils (enc_table t) =
  mkNils (match t_cols t with [] => true | _ => false end) (map no_values (t_cols t)).
Proof.
  intros t. unfold table_nils, enc_table. cbn [json_members]. rewrite nil_scan, elements_scan. f_equal.
  - skips. destruct (t_cols t); reflexivity.
  - skips. rewrite <- (map_ext _ _ column_saved). rewrite <- (map_map enc_column (fun c => nil_member "values" (json_members c))).
    destruct (t_cols t); reflexivity.
Qed.
Lemma file_saved : forall s, file_nils (enc_schema s) = map (fun t => table_nils (enc_table t)) (s_tables s).
Proof.
  intros s. unfold file_nils, enc_schema. cbn [json_members]. rewrite elements_scan. skips.
  destruct (s_tables s); [reflexivity|]. cbn [map]. now rewrite map_map.
Qed.
Lemma last_named : forall (g : table -> nils) ts acc n, ~ In n (map t_name ts) ->
  fold_left (fun m (p : table * nils) => if String.eqb (t_name (fst p)) n then snd p else m) (combine ts (map g ts)) acc = acc.
Proof.
  intros g ts. induction ts as [|t ts IH]; intros acc n H; [reflexivity|]. cbn [map combine fold_left fst snd].
  cbn in H. destruct (String.eqb_spec (t_name t) n) as [E|_]; [exfalso; auto|]. apply IH. auto.
Qed.
Lemma only_named : forall (g : table -> nils) ts acc t, NoDup (map t_name ts) -> In t ts ->
  fold_left (fun m (p : table * nils) => if String.eqb (t_name (fst p)) (t_name t) then snd p else m) (combine ts (map g ts)) acc = g t.
Proof.
  intros g ts. induction ts as [|u ts IH]; intros acc t D I; [destruct I|]. cbn [map combine fold_left fst snd].
  cbn [map] in D. inversion D as [|? ? N D']; subst. destruct I as [->|I].
  - rewrite String.eqb_refl. now apply last_named.
  - apply IH; assumption.
Qed.
Lemma saved_agree : forall from to, NoDup (map t_name (s_tables from)) ->
  agree (nils_at (enc_schema to)) (nils_of (enc_schema from) from) from to.
Proof.
  intros from to D i t old T O _ E. unfold nils_at, nils_of. rewrite !file_saved.
  rewrite (only_named (fun t => table_nils (enc_table t)) _ _ old D O).
  rewrite (nth_error_nth (map (fun t => table_nils (enc_table t)) (s_tables to)) i (mkNils true []) (map_nth_error _ i _ T)).
  rewrite !table_saved, E. split; intros; reflexivity.
Qed.
Lemma saved_report : forall ordT ordC o from to, NoDup (map t_name (s_tables from)) ->
  get_diff_memory (nils_at (enc_schema to)) (nils_of (enc_schema from) from) ordT ordC o from to = get_diff ordT ordC o from to.
Proof. intros. apply report_memory. now apply saved_agree. Qed.
Lemma saved_log : forall float ordT ordC o from to, NoDup (map t_name (s_tables from)) ->
  lq_diff_memory float (nils_at (enc_schema to)) (nils_of (enc_schema from) from) ordT ordC o from to = lq_diff float ordT ordC o from to.
Proof. intros. apply log_memory. now apply saved_agree. Qed.
