(** The QuickDBD text, read back *)
From Coq Require Import String Ascii List NArith Bool Lia Arith.
From Verif.Model Require Import GoString Octopus Quickdbd.
From Verif.Spec Require Import Text Reading OctopusSpec DbmlSpec QuickdbdSpec.
From Verif.Proofs Require Import StringLemmas ReadingProofs ListLemmas.
Import ListNotations.
Local Open Scope string_scope.

(** parameters, each after a space *)
Fixpoint spaced (l : list string) : string :=
  match l with [] => "" | x :: l' => " " ++ x ++ spaced l' end.
Lemma join_spaced : forall l x, join " " (x :: l) = x ++ spaced l.
Proof.
  induction l as [|y l IH]; intros x; cbn [spaced]; [now rewrite app_nil_r_s|].
  change (join " " (x :: y :: l)) with (x ++ " " ++ join " " (y :: l)). now rewrite IH.
Qed.
Lemma spaced_app : forall a b, spaced (a ++ b) = spaced a ++ spaced b.
Proof. induction a as [|x a IH]; intros b; cbn [app spaced]; [reflexivity|]. now rewrite IH, !app_assoc_s. Qed.
Lemma spaced_at : forall l, at_space (spaced l).
Proof. intros [|x l]; [now left|right]. eexists. reflexivity. Qed.
Lemma at_space_app : forall a b, at_space a -> at_space b -> at_space (a ++ b).
Proof. intros a b [->|[r ->]] B; [exact B|right]. eexists. reflexivity. Qed.

(** [accept] on an optional parameter: taken if present, and the texts that may follow it never look
    like it *)
Lemma accept_param : forall (b : bool) p rest, strip (" " ++ p) rest = None ->
  accept (" " ++ p) (spaced (opt_param b p) ++ rest) = (b, rest).
Proof.
  intros b p rest H. destruct b; cbn [opt_param spaced].
  - replace ((" " ++ p ++ "") ++ rest) with ((" " ++ p) ++ rest) by (cbn; now rewrite app_nil_r_s).
    apply accept_yes.
  - cbn [append] in *. unfold accept. now rewrite H.
Qed.

Definition q_fk_params (c : column) : list string :=
  match c_ref c with
  | Some r => ["FK " ++ qdbd_rel r ++ " " ++ ref_table r ++ "." ++ ref_column r]
  | None => []
  end.

Lemma column_text : forall c, qdbd_column c = c_name c ++ String " " (c_type c ++
  spaced (opt_param (c_pk c) "PK") ++ spaced (opt_param (c_uq c) "UNIQUE") ++
  spaced (opt_param (c_autoinc c) "AUTOINCREMENT") ++ spaced (opt_param (negb (c_notnull c)) "NULLABLE") ++
  spaced (opt_param (negb (String.eqb (c_default c) "")) ("default=" ++ c_default c)) ++
  spaced (q_fk_params c) ++
  spaced (opt_param (negb (String.eqb (c_desc c) "")) ("# " ++ c_desc c))).
Proof.
  intros c. unfold qdbd_column. cbv zeta. fold (q_fk_params c). cbn [app]. rewrite join_spaced, !spaced_app. reflexivity.
Qed.

(** heads of the texts that may follow *)
Definition head_in (chars : list ascii) (s : string) : Prop :=
  s = "" \/ exists c r, s = String " " (String c r) /\ In c chars.
Lemma head_strip : forall chars a p s, head_in chars s -> ~ In a chars -> strip (String " " (String a p)) s = None.
Proof.
  intros chars a p s [->|[c [r [-> I]]]] N; [reflexivity|]. cbn [strip]. rewrite Ascii.eqb_refl.
  destruct (Ascii.eqb_spec a c) as [->|Q]; [contradiction|reflexivity].
Qed.
Lemma head_at : forall chars s, head_in chars s -> at_space s.
Proof. intros chars s [->|[c [r [-> _]]]]; [now left|right; eauto]. Qed.
Lemma head_opt : forall (b : bool) x p rest chars, head_in chars rest ->
  head_in (x :: chars) (spaced (opt_param b (String x p)) ++ rest).
Proof.
  intros b x p rest chars H. destruct b; cbn [opt_param spaced append].
  - right. do 2 eexists. split; [reflexivity|now left].
  - destruct H as [->|[c [r [-> I]]]]; [now left|]. right. exists c, r. split; [reflexivity|now right].
Qed.
Lemma head_fk : forall c rest chars, head_in chars rest -> head_in ("F"%char :: chars) (spaced (q_fk_params c) ++ rest).
Proof.
  intros c rest chars H. unfold q_fk_params. destruct (c_ref c); cbn [spaced append].
  - right. do 2 eexists. split; [reflexivity|now left].
  - destruct H as [->|[d [r [-> I]]]]; [now left|]. right. exists d, r. split; [reflexivity|now right].
Qed.

Lemma note_reads : forall d, read_note (spaced (opt_param (negb (String.eqb d "")) ("# " ++ d))) = Some (if_set d).
Proof.
  intros [|c d]; [reflexivity|]. cbn [String.eqb negb opt_param spaced]. rewrite app_nil_r_s. reflexivity.
Qed.
Lemma note_head : forall d, head_in ["#"%char] (spaced (opt_param (negb (String.eqb d "")) ("# " ++ d))).
Proof.
  intros d. destruct (negb (String.eqb d "")); cbn [opt_param spaced append]; [right|now left].
  do 2 eexists. split; [reflexivity|now left].
Qed.

Lemma rel_cases : forall r, (qdbd_rel r = ">-" /\ relation_of r = Many_to_one) \/
  (qdbd_rel r = "-<" /\ relation_of r = One_to_many) \/ (qdbd_rel r = "-" /\ relation_of r = One_to_one).
Proof.
  intros r. unfold qdbd_rel, relation_of.
  destruct (String.eqb_spec (ref_rel r) "n:1") as [E1|N1]; [left; rewrite E1; split; reflexivity|].
  destruct (String.eqb_spec (ref_rel r) "1:n") as [E2|N2]; [right; left; split; reflexivity|].
  destruct (String.eqb_spec (ref_rel r) "1:1") as [E3|N3]; [right; right; split; reflexivity|].
  left. split; reflexivity.
Qed.

Lemma fk_reads : forall c rest, head_in ["#"%char] rest ->
  match c_ref c with Some r => word (ref_table r) /\ word (ref_column r) | None => True end ->
  accept_fk (spaced (q_fk_params c) ++ rest) =
  Some (match c_ref c with Some r => Some (relation_of r, ref_table r, ref_column r) | None => None end, rest).
Proof.
  intros c rest H R. unfold q_fk_params. destruct (c_ref c) as [r|].
  - destruct R as [A B]. cbn [spaced]. rewrite app_nil_r_s.
    replace ((" " ++ "FK " ++ qdbd_rel r ++ " " ++ ref_table r ++ "." ++ ref_column r) ++ rest)
      with (" FK " ++ (qdbd_rel r ++ String " " ((ref_table r ++ String "." (ref_column r)) ++ rest))).
    2: { cbn [append]. rewrite !app_assoc_s. cbn [append]. rewrite !app_assoc_s. reflexivity. }
    unfold accept_fk. rewrite strip_app.
    assert (NS : ~ char_in " " (qdbd_rel r)) by (destruct (rel_cases r) as [[-> _]|[[-> _]|[-> _]]]; nochar).
    rewrite until_space_app; [|exact NS|right; eauto].
    change (strip " " (String " " ((ref_table r ++ String "." (ref_column r)) ++ rest)))
      with (Some ((ref_table r ++ String "." (ref_column r)) ++ rest)). cbv iota.
    rewrite until_space_app; [|nochar|now apply head_at in H].
    rewrite cut_app by nochar.
    destruct (rel_cases r) as [[-> ->]|[[-> ->]|[-> ->]]]; reflexivity.
  - cbn [spaced append]. unfold accept_fk. rewrite (head_strip ["#"%char] "F"); [reflexivity|exact H|].
    intros [Q|[]]; discriminate.
Qed.

Lemma default_reads : forall d rest, ~ char_in " " d -> head_in ["F"; "#"]%char rest ->
  accept_value " default=" (spaced (opt_param (negb (String.eqb d "")) ("default=" ++ d)) ++ rest) = (if_set d, rest).
Proof.
  intros d rest N H. unfold accept_value. destruct d as [|c d].
  - cbn [String.eqb negb opt_param spaced append]. rewrite (head_strip ["F"; "#"]%char "d"); [reflexivity|exact H|].
    intros [Q|[Q|[]]]; discriminate.
  - cbn [String.eqb negb opt_param spaced]. rewrite app_nil_r_s.
    replace ((" " ++ "default=" ++ String c d) ++ rest) with (" default=" ++ (String c d ++ rest)) by reflexivity.
    rewrite strip_app, until_space_app; [reflexivity|exact N|now apply head_at in H].
Qed.

Lemma qcolumn_reads : forall c, qcolumn_ok c -> read_qcolumn (qdbd_column c) = Some (qcolumn_of c).
Proof.
  intros c [A [B [D [DL [NL R]]]]]. rewrite column_text.
  set (r7 := spaced (opt_param (negb (String.eqb (c_desc c) "")) ("# " ++ c_desc c))).
  set (r6 := spaced (q_fk_params c) ++ r7).
  set (r5 := spaced (opt_param (negb (String.eqb (c_default c) "")) ("default=" ++ c_default c)) ++ r6).
  set (r4 := spaced (opt_param (negb (c_notnull c)) "NULLABLE") ++ r5).
  set (r3 := spaced (opt_param (c_autoinc c) "AUTOINCREMENT") ++ r4).
  set (r2 := spaced (opt_param (c_uq c) "UNIQUE") ++ r3).
  set (r1 := spaced (opt_param (c_pk c) "PK") ++ r2).
  assert (H7 : head_in ["#"%char] r7) by apply note_head.
  assert (H6 : head_in ["F"; "#"]%char r6) by now apply head_fk.
  assert (H5 : head_in ["d"; "F"; "#"]%char r5) by now apply head_opt.
  assert (H4 : head_in ["N"; "d"; "F"; "#"]%char r4) by now apply head_opt.
  assert (H3 : head_in ["A"; "N"; "d"; "F"; "#"]%char r3) by now apply head_opt.
  assert (H2 : head_in ["U"; "A"; "N"; "d"; "F"; "#"]%char r2) by now apply head_opt.
  assert (H1 : head_in ["P"; "U"; "A"; "N"; "d"; "F"; "#"]%char r1) by now apply head_opt.
  unfold read_qcolumn. rewrite cut_app by nochar.
  rewrite until_space_app; [|nochar|now apply head_at in H1].
  unfold r1. change " PK" with (" " ++ "PK"). rewrite accept_param.
  2: { eapply head_strip; [exact H2|]. cbn. intuition discriminate. }
  unfold r2. change " UNIQUE" with (" " ++ "UNIQUE"). rewrite accept_param.
  2: { eapply head_strip; [exact H3|]. cbn. intuition discriminate. }
  unfold r3. change " AUTOINCREMENT" with (" " ++ "AUTOINCREMENT"). rewrite accept_param.
  2: { eapply head_strip; [exact H4|]. cbn. intuition discriminate. }
  unfold r4. change " NULLABLE" with (" " ++ "NULLABLE"). rewrite accept_param.
  2: { eapply head_strip; [exact H5|]. cbn. intuition discriminate. }
  unfold r5. rewrite default_reads by assumption.
  unfold r6. rewrite fk_reads by assumption.
  unfold r7. rewrite note_reads. reflexivity.
Qed.

(** ** Tables *)

Lemma title_reads : forall t, word (t_name t) -> read_title (qdbd_table t) = Some (t_name t, if_set (t_desc t)).
Proof.
  intros t W. unfold read_title, qdbd_table. destruct (t_desc t) as [|c d]; cbn [String.eqb if_set].
  - rewrite <- (app_nil_r_s (t_name t)) at 1. rewrite until_space_app; [reflexivity|nochar|now left].
  - change (t_name t ++ " # " ++ String c d) with (t_name t ++ String " " ("# " ++ String c d)).
    rewrite until_space_app; [reflexivity|nochar|right; eauto].
Qed.
Lemma dashes_length : forall n, String.length (dashes n) = n.
Proof. induction n; cbn; auto. Qed.
Lemma dashes_dash : forall n, string_forallb (Ascii.eqb "-") (dashes n) = true.
Proof. induction n; cbn; auto. Qed.
Lemma underline_ok : forall n, underlines n (dashes (String.length n)) = true.
Proof. intros n. unfold underlines. rewrite dashes_length, dashes_dash. now rewrite Nat.eqb_refl. Qed.

Lemma qcolumn_nonempty : forall c, qcolumn_ok c -> String.eqb (qdbd_column c) "" = false.
Proof.
  intros c [A _]. destruct (word_cons _ A) as [x [y [E _]]]. unfold qdbd_column. cbv zeta. rewrite E. reflexivity.
Qed.

Lemma qcolumns_read : forall cs n d acc rest, Forall qcolumn_ok cs ->
  read_qlines (QCols n d acc) (map qdbd_column cs ++ "" :: rest) =
  match read_qlines QTop rest with
  | Some ts => Some (mkQTable n d (acc ++ map qcolumn_of cs)%list :: ts) | None => None end.
Proof.
  induction cs as [|c cs IH]; intros n d acc rest F; cbn [map app].
  - rewrite app_nil_r. reflexivity.
  - inversion F as [|? ? P F']; subst. cbn [read_qlines]. rewrite qcolumn_nonempty, qcolumn_reads by exact P.
    rewrite IH by exact F'. now rewrite <- app_assoc.
Qed.

Definition qtable_ok (t : table) : Prop := word (t_name t) /\ one_line (t_desc t) /\ Forall qcolumn_ok (t_cols t).

Lemma blocks_read : forall ts rest, Forall qtable_ok ts ->
  read_qlines QTop (flat_map qdbd_block ts ++ rest) =
  match read_qlines QTop rest with Some l => Some (map qtable_of ts ++ l)%list | None => None end.
Proof.
  induction ts as [|t ts IH]; intros rest F; cbn [flat_map map app].
  - destruct (read_qlines QTop rest); reflexivity.
  - inversion F as [|? ? [W [L C]] F']; subst. unfold qdbd_block at 1. rewrite <- app_assoc, <- !app_comm_cons, <- app_assoc.
    cbn [read_qlines]. rewrite title_reads by exact W. cbn [read_qlines]. rewrite underline_ok.
    cbn [app]. rewrite qcolumns_read by exact C. cbn [app]. rewrite IH by exact F'.
    destruct (read_qlines QTop rest); reflexivity.
Qed.

Lemma spaced_line : forall l, Forall one_line l -> one_line (spaced l).
Proof. induction 1; cbn [spaced]; oneline. Qed.
Lemma qcolumn_line : forall c, qcolumn_ok c -> one_line (qdbd_column c).
Proof.
  intros c [A [B [D [DL [NL R]]]]]. rewrite column_text.
  assert (O : forall b s, one_line s -> one_line (spaced (opt_param b s))).
  { intros [] s H; apply spaced_line; repeat constructor. exact H. }
  apply one_line_app; [now apply word_one_line|]. apply (one_line_app " "); [oneline|].
  apply one_line_app; [now apply word_one_line|].
  do 5 (apply one_line_app; [apply O; oneline|]). apply one_line_app.
  - apply spaced_line. unfold q_fk_params. destruct (c_ref c) as [r|]; [|constructor]. constructor; [|constructor].
    destruct R as [R1 R2]. assert (Q : one_line (qdbd_rel r)) by (destruct (rel_cases r) as [[-> _]|[[-> _]|[-> _]]]; oneline).
    oneline.
  - apply O. oneline.
Qed.
Lemma dashes_line : forall n, one_line (dashes n).
Proof. induction n; cbn [dashes]; oneline. Qed.

Lemma qdbd_lines : forall ts, Forall qtable_ok ts -> Forall one_line (flat_map qdbd_block ts).
Proof.
  intros ts F. apply Forall_forall. intros x I. apply in_flat_map in I as [t [I J]]. rewrite Forall_forall in F.
  destruct (F t I) as [W [L C]]. destruct J as [<-|[<-|J]].
  - unfold qdbd_table. destruct (String.eqb (t_desc t) ""); oneline.
  - apply dashes_line.
  - apply in_app_iff in J as [J|[<-|[]]]; [|oneline]. apply in_map_iff in J as [c [<- J]].
    rewrite Forall_forall in C. now apply qcolumn_line, C.
Qed.

Lemma qdbd_reads : forall s, qdbd_ok s -> read_qdbd (qdbd_text s) = Some (map qtable_of (s_tables s)).
Proof.
  intros s [W C].
  assert (F : Forall qtable_ok (s_tables s)).
  { apply Forall_forall. intros t I. destruct (W t I). split; [assumption|]. split; [assumption|].
    apply Forall_forall. intros c J. apply C. apply in_flat_map. now exists t. }
  pose proof (blocks_read (s_tables s) [] F) as B. cbn [read_qlines] in B. rewrite !app_nil_r in B.
  unfold read_qdbd, qdbd_text. fold newline. rewrite <- B. clear B.
  destruct (s_tables s) as [|t ts] eqn:E; [reflexivity|].
  rewrite <- (lines_join (flat_map qdbd_block (t :: ts))) at 2; [|discriminate|now apply qdbd_lines].
  destruct (join (String newline "") (flat_map qdbd_block (t :: ts))) eqn:J; [|reflexivity].
  exfalso. pose proof (lines_join (flat_map qdbd_block (t :: ts)) ltac:(discriminate) (qdbd_lines _ F)) as L.
  rewrite J in L. discriminate.
Qed.

Definition qdbd_user : schema :=
  mkSchema "" "db" "1"
    [mkTable "group" [mkCol "id" "int64" "unique id" 0 0 true true false true "" "" [] None;
                      mkCol "name" "varchar" "group name" 40 0 true false true false "none" "" [] None]
       "Group table" "" "" [];
     mkTable "user" [mkCol "group_id" "int64" "" 0 0 false false false false "" "" []
                        (Some (mkRef "group" "id" "n:1"))] "" "" "" []].
Lemma qdbd_user_ok : qdbd_ok qdbd_user.
Proof.
  assert (NC : forall c s, contains_char c s = false -> ~ char_in c s) by (intros; now apply contains_char_false).
  assert (W : forall s, negb (String.eqb s "") && string_forallb word_char s = true -> word s).
  { intros s H. apply andb_true_iff in H as [A B]. split; [intros ->; discriminate|].
    intros c I. exact (forallb_char_in _ _ _ B I). }
  split.
  - intros t I. cbn in I. destruct I as [<-|[<-|[]]]; (split; [apply W; reflexivity|apply NC; reflexivity]).
  - intros c J. vm_compute in J.
    repeat (destruct J as [<-|J]; [split; [apply W; reflexivity|]; split; [apply W; reflexivity|];
      split; [apply NC; reflexivity|]; split; [apply NC; reflexivity|]; split; [apply NC; reflexivity|];
      cbn; first [exact I|split; apply W; reflexivity]|]). destruct J.
Qed.

(** a line break in a description: two schemas, one text *)
Definition broken_note : schema :=
  mkSchema "" "" "" [mkTable "t" [mkCol "a" "int32" "first
b int32 NULLABLE" 0 0 true false false false "" "" [] None] "" "" "" []].
Definition two_columns : schema :=
  mkSchema "" "" "" [mkTable "t" [mkCol "a" "int32" "first" 0 0 true false false false "" "" [] None;
                                  mkCol "b" "int32" "" 0 0 false false false false "" "" [] None] "" "" "" []].
Lemma qdbd_ambiguous : exists s1 s2, valid_schema s1 /\ valid_schema s2 /\ qdbd_text s1 = qdbd_text s2 /\
  length (columns_of s1) <> length (columns_of s2).
Proof.
  exists broken_note, two_columns. split; [|split; [|split; [vm_compute; reflexivity|vm_compute; discriminate]]].
  - intros c [<-|[]]. split; [discriminate|]. split; [vm_compute; tauto|]. split; [discriminate|]. split; discriminate.
  - intros c [<-|[<-|[]]]; (split; [discriminate|]; split; [vm_compute; tauto|]; split; [discriminate|]; split; discriminate).
Qed.
