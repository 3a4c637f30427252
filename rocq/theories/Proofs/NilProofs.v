(** Which of a nil column and an invalid one is met first *)
From Coq Require Import String Ascii List NArith Bool.
From Verif.Model Require Import GoString Octopus Common NilColumns.
From Verif.Spec Require Import OctopusSpec NilSpec.
From Verif.Proofs Require Import OctopusProofs.
Import ListNotations.
Local Open Scope string_scope.

Lemma validate_right : forall c c', validate true (normalize_type c) = (c', None) -> put_right (Some c) (Some c').
Proof.
  intros c c' V. assert (R : repairable c) by (apply repairable_iff; rewrite V; reflexivity).
  destruct R as [d [R D]]. exists c, c'. split; [reflexivity|]. split; [reflexivity|].
  pose proof (validate_fixed d D) as F. 
  assert (E : c' = d).
  { apply (repaired_unique c); [|exact R]. replace c' with (fst (validate true (normalize_type c))) by (rewrite V; reflexivity).
    apply validate_repaired. apply validate_error. rewrite V. reflexivity. }
  subst d. split; assumption.
Qed.
Lemma validate_wrong : forall c c' e, validate true (normalize_type c) = (c', Some e) -> ~ repairable c.
Proof. intros c c' e V R. apply repairable_iff in R. rewrite V in R. discriminate. Qed.
Lemma right_good : forall p q, put_right p q -> good p.
Proof. intros p q (c & c' & -> & _ & R & V). exists c. split; [reflexivity|]. exists c'. split; assumption. Qed.

Lemma forall2_good : forall ps qs, Forall2 put_right ps qs -> Forall good ps.
Proof. intros ps qs F. induction F as [|p q ps qs R F IH]; [apply Forall_nil|]. apply Forall_cons; [exact (right_good p q R) | exact IH]. Qed.

Lemma pcols_walk : forall ps,
  match normalize_pcols ps with
  | Panic => nil_first ps
  | Ok (qs, false) => Forall2 put_right ps qs
  | Ok (qs, true) => exists before c after before' c',
      ps = (before ++ Some c :: after)%list /\ qs = (before' ++ Some c' :: after)%list /\ Forall2 put_right before before' /\ ~ repairable c
  end.
Proof.
  induction ps as [|p ps IH]; cbn [normalize_pcols]; [apply Forall2_nil|]. destruct p as [c|].
  - destruct (validate true (normalize_type c)) as [c' [e|]] eqn:V.
    + exists [], c, ps, [], c'. split; [reflexivity|]. split; [reflexivity|]. split; [apply Forall2_nil | exact (validate_wrong _ _ _ V)].
    + apply validate_right in V. destruct (normalize_pcols ps) as [[r []]|].
      * destruct IH as (before & d & after & before' & d' & -> & -> & F & N).
        exists (Some c :: before), d, after, (Some c' :: before'), d'. split; [reflexivity|]. split; [reflexivity|].
        split; [apply Forall2_cons; assumption | exact N].
      * apply Forall2_cons; assumption.
      * destruct IH as (before & after & -> & F). exists (Some c :: before), after. split; [reflexivity|].
        apply Forall_cons; [exact (right_good _ _ V) | exact F].
  - exists [], ps. split; [reflexivity | apply Forall_nil].
Qed.

Lemma ptables_walk : forall ts,
  match normalize_ptables ts with
  | Panic => nil_first (all_pcols ts)
  | Ok (us, false) => map pt_rest us = map pt_rest ts /\ Forall2 put_right (all_pcols ts) (all_pcols us)
  | Ok (us, true) => map pt_rest us = map pt_rest ts /\ exists before c after before' c',
      all_pcols ts = (before ++ Some c :: after)%list /\ all_pcols us = (before' ++ Some c' :: after)%list /\
      Forall2 put_right before before' /\ ~ repairable c
  end.
Proof.
  induction ts as [|t ts IH]; cbn [normalize_ptables]; [split; [reflexivity | apply Forall2_nil]|].
  pose proof (pcols_walk (pt_cols t)) as W. change (all_pcols (t :: ts)) with (pt_cols t ++ all_pcols ts)%list.
  destruct (normalize_pcols (pt_cols t)) as [[cs []]|].
  - destruct W as (before & c & after & before' & c' & E & -> & F & N). split; [reflexivity|]. rewrite E.
    exists before, c, (after ++ all_pcols ts)%list, before', c'. split; [rewrite <- app_assoc; reflexivity|].
    split; [unfold all_pcols; cbn [flat_map pt_cols]; rewrite <- app_assoc; reflexivity|]. split; assumption.
  - destruct (normalize_ptables ts) as [[us []]|].
    + destruct IH as [M (before & c & after & before' & c' & -> & E & F & N)]. split; [cbn [map]; rewrite M; reflexivity|].
      exists (pt_cols t ++ before)%list, c, after, (cs ++ before')%list, c'. rewrite <- !app_assoc. split; [reflexivity|].
      split; [unfold all_pcols in *; cbn [flat_map pt_cols]; rewrite E; reflexivity|]. split; [apply Forall2_app; assumption | exact N].
    + destruct IH as [M F]. split; [cbn [map]; rewrite M; reflexivity|]. unfold all_pcols in *. cbn [flat_map pt_cols].
      apply Forall2_app; assumption.
    + destruct IH as (before & after & -> & F). exists (pt_cols t ++ before)%list, after. rewrite <- app_assoc. split; [reflexivity|].
      apply Forall_app. split; [exact (forall2_good _ _ W) | exact F].
  - destruct W as (before & after & -> & F). exists before, (after ++ all_pcols ts)%list. rewrite <- app_assoc. split; [reflexivity | exact F].
Qed.

(** the first nil and the first invalid column cannot both be first *)
Lemma split_first : forall (before : list (option column)) c after before2 after2,
  (before ++ Some c :: after = before2 ++ None :: after2)%list -> Forall good before -> Forall good before2 -> ~ repairable c -> False.
Proof.
  induction before as [|p before IH]; intros c after before2 after2 E F F2 N; destruct before2 as [|q before2]; cbn in E; try discriminate.
  - injection E as <- _. apply Forall_inv in F2. destruct F2 as [d [X R]]. injection X as <-. contradiction.
  - injection E as -> _. apply Forall_inv in F. destruct F as [d [X _]]. discriminate.
  - injection E as _ E. exact (IH c after before2 after2 E (Forall_inv_tail F) (Forall_inv_tail F2) N).
Qed.
Lemma good_no_nil : forall ps, Forall good ps -> ~ nil_first ps.
Proof.
  intros ps F (before & after & -> & _). apply Forall_app in F as [_ F]. apply Forall_inv in F. destruct F as [d [X _]]. discriminate.
Qed.

Lemma nil_crashes_iff : forall sortf ts, load_ptables sortf ts = Panic <-> nil_first (all_pcols (sortf ts)).
Proof.
  intros sortf ts. unfold load_ptables. pose proof (ptables_walk (sortf ts)) as W.
  destruct (normalize_ptables (sortf ts)) as [[us []]|]; (split; [intros E; first [discriminate E | exact W]|]); intros N; [| |reflexivity]; exfalso.
  - destruct W as [_ (before & c & after & before' & c' & E & _ & F & R)]. destruct N as (b2 & a2 & E2 & F2).
    rewrite E in E2. exact (split_first _ _ _ _ _ E2 (forall2_good _ _ F) F2 R).
  - destruct W as [_ F]. exact (good_no_nil _ (forall2_good _ _ F) N).
Qed.
Lemma nil_loads : forall sortf ts us, load_ptables sortf ts = Ok us ->
  map pt_rest us = map pt_rest (sortf ts) /\ stops_at (all_pcols (sortf ts)) (all_pcols us).
Proof.
  intros sortf ts us L. unfold load_ptables in L. pose proof (ptables_walk (sortf ts)) as W.
  destruct (normalize_ptables (sortf ts)) as [[vs b]|]; [|discriminate]. injection L as <-. destruct b.
  - destruct W as [M X]. split; [exact M | right; exact X].
  - destruct W as [M X]. split; [exact M | left; exact X].
Qed.

(** without nil pointers it is the loading of Model/Octopus.v *)
Lemma pcols_lift : forall cs, normalize_pcols (map Some cs) =
  Ok (map Some (fst (normalize_cols cs)), match snd (normalize_cols cs) with Some _ => true | None => false end).
Proof.
  induction cs as [|c cs IH]; [reflexivity|]. cbn [map normalize_pcols normalize_cols].
  destruct (validate true (normalize_type c)) as [c' [e|]]; [reflexivity|]. rewrite IH. destruct (normalize_cols cs) as [r e]. reflexivity.
Qed.
Lemma lift_with : forall t cs, mkPTable (pt_rest (lift t)) (map Some cs) = lift (with_cols t cs).
Proof. intros []; reflexivity. Qed.
Lemma ptables_lift : forall ts, normalize_ptables (map lift ts) =
  Ok (map lift (fst (normalize_tables ts)), match snd (normalize_tables ts) with Some _ => true | None => false end).
Proof.
  induction ts as [|t ts IH]; [reflexivity|]. cbn [map normalize_ptables normalize_tables].
  change (pt_cols (lift t)) with (map Some (t_cols t)). rewrite pcols_lift. destruct (normalize_cols (t_cols t)) as [cs [e|]]; cbn [fst snd].
  - rewrite lift_with. reflexivity.
  - rewrite IH. destruct (normalize_tables ts) as [r e]. cbn [fst snd map]. rewrite lift_with. reflexivity.
Qed.
Lemma no_nil_loads : forall sortf psortf s, psortf (map lift (s_tables s)) = map lift (sortf (s_tables s)) ->
  load_ptables psortf (map lift (s_tables s)) = Ok (map lift (s_tables (load_schema_decoded sortf s))).
Proof.
  intros sortf psortf s E. unfold load_ptables, load_schema_decoded, normalize. rewrite E, ptables_lift.
  destruct (normalize_tables (sortf (s_tables s))) as [ts e]. reflexivity.
Qed.
