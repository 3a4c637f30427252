(** The Liquibase change logs of whole schemas, run on the abstract database *)
From Coq Require Import String Ascii List NArith Bool Lia Sorting.Permutation Sorting.Sorted.
From Verif.Model Require Import GoString Util Octopus DiffCore Liquibase.
From Verif.Spec Require Import Order Text DiffSpec LiquibaseSpec Database.
From Verif.Proofs Require Import ListLemmas StringLemmas UtilProofs OctopusProofs DiffCoreProofs DiffFacts
  LiquibaseProofs DatabaseProofs MigrationProofs.
Import ListNotations.
Local Open Scope string_scope.
Local Open Scope list_scope.

Lemma find_none : forall n s, find_table n s = None <-> ~ In n (map b_name s).
Proof.
  intros n s. unfold find_table. induction s as [|b s IH]; simpl; [tauto|].
  destruct (String.eqb (b_name b) n) eqn:E.
  - apply String.eqb_eq in E. split; [discriminate|]. intros C. exfalso. apply C. auto.
  - apply String.eqb_neq in E. rewrite IH. tauto.
Qed.

Lemma find_in : forall s b, NoDup (map b_name s) -> In b s -> find_table (b_name b) s = Some b.
Proof.
  intros s b. unfold find_table. induction s as [|x s IH]; simpl; intros D H; [destruct H|].
  inversion D as [|? ? NI ND]; subst. destruct H as [->|H]; [now rewrite String.eqb_refl|].
  destruct (String.eqb (b_name x) (b_name b)) eqn:E; auto.
  apply String.eqb_eq in E. exfalso. apply NI. rewrite E. now apply in_map.
Qed.

Lemma put_absent : forall n b' s, ~ In n (map b_name s) -> put_table n b' s = s.
Proof.
  intros n b' s. unfold put_table. induction s as [|x s IH]; simpl; intros H; auto.
  destruct (String.eqb (b_name x) n) eqn:E; [apply String.eqb_eq in E; tauto|]. rewrite IH; tauto.
Qed.

Lemma put_perm : forall s b b' rest, Permutation s (b :: rest) -> NoDup (map b_name s) ->
  Permutation (put_table (b_name b) b' s) (b' :: rest).
Proof.
  intros s b b' rest P D.
  assert (D' : NoDup (map b_name (b :: rest))) by (eapply Permutation_NoDup; [apply Permutation_map; exact P|exact D]).
  unfold put_table. rewrite (Permutation_map _ P). simpl. rewrite String.eqb_refl. constructor.
  inversion D' as [|? ? NI ND]; subst. fold (put_table (b_name b) b' rest). now rewrite put_absent.
Qed.

Lemma drop_perm : forall s b rest, Permutation s (b :: rest) -> NoDup (map b_name s) ->
  Permutation (filter (fun x => negb (String.eqb (b_name x) (b_name b))) s) rest.
Proof.
  intros s b rest P D.
  assert (D' : NoDup (map b_name (b :: rest))) by (eapply Permutation_NoDup; [apply Permutation_map; exact P|exact D]).
  rewrite (Permutation_filter' _ _ _ P). simpl. rewrite String.eqb_refl. simpl.
  inversion D' as [|? ? NI ND]; subst. clear - NI. induction rest as [|x rest IH]; simpl in *; auto.
  destruct (String.eqb (b_name x) (b_name b)) eqn:E; simpl; [apply String.eqb_eq in E; tauto|].
  constructor. apply IH. tauto.
Qed.

Section Tables.
Variable fk : string -> bool.
Variable sv : server.
Variable comments : bool.
Variable suffix : string.
Notation has_table := (has_table fk comments suffix).
Notation good_table := (good_table fk comments).
Notation run := (fold_opt (apply_change sv)).

Lemma has_good : forall t b, has_table t b -> good_table t b.
Proof.
  intros t b [H1 [H2 [H3 [H4 H5]]]]. repeat split; auto; try apply H4.
  - intros Hk. destruct H5 as [[E _]|[ks [E [S _]]]]; rewrite E in *; [destruct H|]. destruct H as [<-|[]]. now apply S.
  - intros Hk. destruct H5 as [[E _]|[ks [E [S _]]]]; rewrite E in *; [destruct H|]. destruct H as [<-|[]]. now apply S.
  - intros Hk C. destruct H5 as [[_ E]|[ks [E _]]]; [contradiction|congruence].
  - intros Hk. destruct H5 as [[E _]|[ks [_ [_ E]]]]; auto. contradiction.
Qed.

(** ** Tables in both schemas *)
Lemma kept_tables : forall (K : list (table * table)) logs bs rest s,
  Forall2 (fun p chs => Forall (fun ch => inside ch /\ target ch = t_name (fst p)) chs /\
     t_name (snd p) = t_name (fst p) /\
     forall b, has_table (snd p) b -> exists b', fold_opt (table_step sv) chs b = Some b' /\ has_table (fst p) b') K logs ->
  Forall2 has_table (map snd K) bs -> Permutation s (bs ++ rest) -> NoDup (map b_name s) ->
  exists s' bs', run (concat logs) s = Some s' /\ Permutation s' (bs' ++ rest) /\
    Forall2 has_table (map fst K) bs' /\ NoDup (map b_name s') /\ Permutation (map b_name s') (map b_name s).
Proof.
  intros K logs bs rest s F. revert bs rest s. induction F as [|[t old] chs K logs [I1 [I2 I3]] F IH]; intros bs rest s B P D.
  - inversion B; subst. exists s, []. repeat split; auto.
  - simpl in B. inversion B as [|? b ? bs0 B1 B2]; subst. simpl in I1, I2, I3. cbn [concat].
    destruct (I3 b B1) as [b' [S1 B1']].
    assert (Hin : In b s) by (eapply Permutation_in; [symmetry; exact P|now left]).
    assert (Nb : b_name b = t_name t) by (destruct B1 as [B1 _]; congruence).
    assert (Nb' : b_name b' = t_name t) by (destruct B1' as [B1' _]; congruence).
    assert (R : run chs s = Some (put_table (t_name t) b' s)).
    { eapply table_run; eauto. rewrite <- Nb. now apply find_in. }
    rewrite (fold_opt_app _ _ _ _ _ R).
    assert (P1 : Permutation (put_table (t_name t) b' s) (b' :: bs0 ++ rest)).
    { rewrite <- Nb. now apply put_perm. }
    assert (PN : Permutation (map b_name (put_table (t_name t) b' s)) (map b_name s)).
    { rewrite (Permutation_map _ P1), (Permutation_map _ P). simpl. rewrite Nb, Nb'. reflexivity. }
    destruct (IH bs0 (b' :: rest) (put_table (t_name t) b' s) B2) as [s' [bs' [R' [P' [F' [D' N']]]]]].
    + rewrite P1. apply Permutation_middle.
    + eapply Permutation_NoDup; [symmetry; exact PN|exact D].
    + exists s', (b' :: bs'). split; auto. split.
      * rewrite P'. simpl. symmetry. apply Permutation_middle.
      * split; [constructor; auto|]. split; auto. now rewrite N'.
Qed.

(** ** Dropped tables *)
Lemma dropped_tables : forall bs rest s, Permutation s (bs ++ rest) -> NoDup (map b_name s) ->
  exists s', run (map LqDropTable (map b_name bs)) s = Some s' /\ Permutation s' rest.
Proof.
  induction bs as [|b bs IH]; simpl; intros rest s P D; [eauto|].
  assert (Hin : In b s) by (eapply Permutation_in; [symmetry; exact P|now left]).
  rewrite (find_in s b D Hin). pose proof (drop_perm _ _ _ P D) as P1.
  destruct (IH rest _ P1) as [s' [R P']]; [|eauto].
  eapply Permutation_NoDup; [symmetry; apply Permutation_map; exact P1|].
  assert (D' : NoDup (map b_name (b :: bs ++ rest))) by (eapply Permutation_NoDup; [apply Permutation_map; exact P|exact D]).
  now inversion D'.
Qed.

(** ** Renamed tables *)
Definition lq_rename_all (p : nat * (table * table)) : list lq_change :=
  let nw := fst (snd p) in let old := snd (snd p) in
  (if Nat.ltb 0 (ss_size (uq_name_set old)) then [LqDropUniqueConstraint (t_name old) (t_name old ++ suffix)] else []) ++
  [LqRenameTable (t_name nw) (t_name old)] ++
  (if Nat.ltb 0 (ss_size (uq_name_set nw))
   then [LqAddUniqueConstraint (t_name nw) (ss_join (uq_name_set nw) ", ") (t_name nw ++ suffix)] else []).

Lemma uq_size : forall t, Nat.ltb 0 (ss_size (uq_name_set t)) = true <-> exists k, uq_of t k.
Proof. intros. rewrite size_pos. split; intros [k Hk]; exists k; now apply uq_set. Qed.

Lemma renamed_table : forall i nw old b rest s,
  has_table old b -> Permutation s (b :: rest) -> NoDup (map b_name s) -> ~ In (t_name nw) (map b_name s) ->
  t_cols nw = t_cols old -> well_formed nw -> (comments = true -> t_desc nw = t_desc old) ->
  exists s' b', run (lq_rename_all (i, (nw, old))) s = Some s' /\ has_table nw b' /\ Permutation s' (b' :: rest).
Proof.
  intros i nw old b rest s [B1 [B2 [B3 [B4 B5]]]] P D Hn Hc W Hd. unfold lq_rename_all. cbn [fst snd].
  assert (D' : NoDup (map b_name (b :: rest))) by (eapply Permutation_NoDup; [apply Permutation_map; exact P|exact D]).
  assert (Hin : In b s) by (eapply Permutation_in; [symmetry; exact P|now left]).
  assert (Ff : find_table (t_name old) s = Some b) by (rewrite <- B1; now apply find_in).
  assert (Uo : forall k, uq_of nw k <-> uq_of old k) by (intros k; unfold uq_of; rewrite Hc; tauto).
  (* drop *)
  assert (S1 : exists s1 b1, run (if Nat.ltb 0 (ss_size (uq_name_set old))
       then [LqDropUniqueConstraint (t_name old) (t_name old ++ suffix)] else []) s = Some s1 /\
     Permutation s1 (b1 :: rest) /\ b_name b1 = t_name old /\ b_remarks b1 = b_remarks b /\ b_cols b1 = b_cols b /\
     b_pk b1 = b_pk b /\ b_uqs b1 = []).
  { destruct (Nat.ltb 0 (ss_size (uq_name_set old))) eqn:E.
    - apply uq_size in E. destruct B5 as [[_ B5]|[ks [B5 _]]]; [contradiction|].
      exists (put_table (t_name old) (set_uqs b []) s), (set_uqs b []). split.
      + cbn [fold_opt apply_change target]. rewrite Ff. cbn [table_step]. rewrite B5. cbn [existsb filter fst].
        rewrite String.eqb_refl. reflexivity.
      + split; [rewrite <- B1; now apply put_perm|]. simpl. auto.
    - exists s, b. repeat split; auto. destruct B5 as [[B5 _]|[ks [_ [_ B5]]]]; auto. apply uq_size in B5. congruence. }
  destruct S1 as [s1 [b1 [R1 [P1 [N1 [M1 [C1 [K1 U1]]]]]]]]. rewrite (fold_opt_app _ _ _ _ _ R1).
  assert (PN1 : Permutation (map b_name s1) (map b_name s)).
  { rewrite (Permutation_map _ P1), (Permutation_map _ P). simpl. now rewrite N1, B1. }
  assert (D1 : NoDup (map b_name s1)) by (eapply Permutation_NoDup; [symmetry; exact PN1|exact D]).
  (* rename *)
  set (b2 := mkDbTable (t_name nw) (b_remarks b1) (b_cols b1) (b_pk b1) (b_uqs b1)).
  set (s2 := put_table (t_name old) b2 s1).
  assert (R2 : run [LqRenameTable (t_name nw) (t_name old)] s1 = Some s2).
  { cbn [fold_opt apply_change]. rewrite (proj2 (find_none (t_name nw) s1)).
    - rewrite <- N1. rewrite (find_in s1 b1 D1); [|eapply Permutation_in; [symmetry; exact P1|now left]].
      unfold s2. rewrite N1. reflexivity.
    - intros C. apply Hn. eapply Permutation_in; eauto. }
  rewrite (fold_opt_app _ _ _ _ _ R2).
  assert (P2 : Permutation s2 (b2 :: rest)) by (unfold s2; rewrite <- N1; now apply put_perm).
  assert (D2 : NoDup (map b_name s2)).
  { eapply Permutation_NoDup; [symmetry; apply Permutation_map; exact P2|]. simpl. inversion D' as [|? ? NI ND]; subst.
    constructor; auto. intros C. apply Hn. eapply Permutation_in; [symmetry; apply Permutation_map; exact P|]. now right. }
  assert (C2 : has_cols fk comments (t_cols nw) b2).
  { rewrite Hc. eapply has_cols_eq; [|exact B3]. exact C1. }
  assert (K2 : same_set (b_pk b2) (pk_of nw)).
  { intros k. simpl. rewrite K1. rewrite (B4 k). unfold pk_of. rewrite Hc. tauto. }
  assert (M2 : comments = true -> b_remarks b2 = t_desc nw).
  { intros Ec. simpl. rewrite M1, Hd; auto. }
  (* add *)
  destruct (Nat.ltb 0 (ss_size (uq_name_set nw))) eqn:E.
  - apply size_pos in E. destruct E as [k0 Hk0].
    assert (NE : uq_name_set nw <> []) by (intros C; rewrite C in Hk0; destruct Hk0).
    assert (CL : column_list (ss_join (uq_name_set nw) ", ") = ss_slice (uq_name_set nw)).
    { apply set_column_list; auto. intros k Hk. apply uq_set in Hk. destruct Hk as [c [Hk1 [_ <-]]]. now apply W. }
    assert (KS : forall k, In k (ss_slice (uq_name_set nw)) <-> uq_of nw k).
    { intros k. rewrite ss_slice_in. apply uq_set. }
    set (b3 := set_uqs b2 [(Some (t_name nw ++ suffix)%string, ss_slice (uq_name_set nw))]).
    exists (put_table (t_name nw) b3 s2), b3. split.
    + cbn [fold_opt apply_change target]. change (t_name nw) with (b_name b2).
      rewrite (find_in s2 b2 D2); [|eapply Permutation_in; [symmetry; exact P2|now left]].
      cbn [table_step]. rewrite CL. replace (b_uqs b2) with (@nil (option string * list string)) by (symmetry; exact U1).
      cbn [existsb].
      assert (A : forallb (fun k => named_col k b2) (ss_slice (uq_name_set nw)) = true).
      { apply forallb_forall. intros k Hk. eapply named_iff; eauto. apply uq_of_name. now apply KS. }
      rewrite A. reflexivity.
    + split; [|change (t_name nw) with (b_name b2); now apply put_perm].
      split; [reflexivity|]. split; [exact M2|]. split; [eapply has_cols_eq; [|exact C2]; reflexivity|].
      split; [exact K2|]. right. exists (ss_slice (uq_name_set nw)). split; [reflexivity|]. split; [exact KS|].
      exists k0. now apply uq_set.
  - exists s2, b2. split; [reflexivity|]. split; auto. split; [reflexivity|]. split; auto. split; auto. split; auto.
    left. split; [exact U1|]. intros C. apply uq_size in C. congruence.
Qed.

Lemma renamed_tables : forall (R : list (nat * (table * table))) bs rest s,
  Forall2 has_table (map (fun r => snd (snd r)) R) bs -> Permutation s (bs ++ rest) ->
  NoDup (map b_name s) -> NoDup (map (fun r => t_name (fst (snd r))) R) ->
  (forall r, In r R -> ~ In (t_name (fst (snd r))) (map b_name s) /\ t_cols (fst (snd r)) = t_cols (snd (snd r)) /\
     well_formed (fst (snd r)) /\ (comments = true -> t_desc (fst (snd r)) = t_desc (snd (snd r)))) ->
  exists s' bs', run (flat_map lq_rename_all R) s = Some s' /\
    Forall2 has_table (map (fun r => fst (snd r)) R) bs' /\ Permutation s' (bs' ++ rest).
Proof.
  induction R as [|[i [nw old]] R IH]; intros bs rest s F P D Dn HR.
  - inversion F; subst. exists s, []. repeat split; auto.
  - simpl in F. inversion F as [|? b ? bs0 F1 F2]; subst. simpl in P.
    destruct (HR (i, (nw, old)) (or_introl eq_refl)) as [H1 [H2 [H3 H4]]]. simpl in H1, H2, H3, H4.
    destruct (renamed_table i nw old b (bs0 ++ rest) s F1 P D H1 H2 H3 H4) as [s1 [b1 [R1 [B1 P1]]]].
    cbn [flat_map]. rewrite (fold_opt_app _ _ _ _ _ R1).
    simpl in Dn. inversion Dn as [|? ? NI ND]; subst.
    assert (D' : NoDup (map b_name (b :: bs0 ++ rest))) by (eapply Permutation_NoDup; [apply Permutation_map; exact P|exact D]).
    assert (Sub : forall k, In k (map b_name (bs0 ++ rest)) -> In k (map b_name s)).
    { intros k Hk. eapply Permutation_in; [symmetry; apply Permutation_map; exact P|]. now right. }
    assert (N1 : b_name b1 = t_name nw) by apply B1.
    destruct (IH bs0 (b1 :: rest) s1 F2) as [s' [bs' [R' [F' P']]]]; auto.
    + rewrite P1. apply Permutation_middle.
    + eapply Permutation_NoDup; [symmetry; apply Permutation_map; exact P1|]. simpl. rewrite N1.
      inversion D' as [|? ? NI' ND']; subst. constructor; auto.
    + intros r Hr. destruct (HR r (or_intror Hr)) as [Q1 Q2]. split; auto. intros C.
      apply (Permutation_in _ (Permutation_map b_name P1)) in C. simpl in C. rewrite N1 in C. destruct C as [C|C].
      * apply NI. rewrite C. now apply (in_map (fun r => t_name (fst (snd r)))).
      * apply Q1. now apply Sub.
    + exists s', (b1 :: bs'). split; auto. split; [constructor; auto|]. rewrite P'. simpl. symmetry. apply Permutation_middle.
Qed.

(** ** Created tables *)

Lemma map_lq_columns_spec : forall sp su cs lcs, map_lq_columns fk comments sp su cs = Some lcs ->
  (forall c, In c cs -> c_pk c = true -> c_notnull c = true) ->
  Forall2 (is_col fk comments) cs (map new_dbcol lcs) /\ map lc_name lcs = map c_name cs /\
  map lc_name (filter (declares k_pk) lcs) = map c_name (filter (fun c => c_pk c && negb sp) cs) /\
  map lc_name (filter (declares k_unique) lcs) = map c_name (filter (fun c => c_uq c && negb su) cs).
Proof.
  induction cs as [|c cs IH]; simpl; intros lcs H Hn.
  - injection H as <-. repeat split; constructor.
  - destruct (new_lq_column fk c sp su) as [lc|] eqn:El; [|discriminate].
    destruct (map_lq_columns fk comments sp su cs) as [r|] eqn:Er; [|discriminate]. injection H as <-.
    destruct (IH r eq_refl) as [I1 [I2 [I3 I4]]]; [intros; apply Hn; auto|].
    destruct (new_col_ok fk comments c sp su lc El) as [Hc [N1 [P1 U1]]]; [apply Hn; auto|].
    assert (N2 : lc_name (lc_comments comments lc) = c_name c) by (unfold lc_comments; destruct comments; exact N1).
    assert (P2 : declares k_pk (lc_comments comments lc) = c_pk c && negb sp).
    { rewrite <- P1. unfold lc_comments. destruct comments; reflexivity. }
    assert (U2 : declares k_unique (lc_comments comments lc) = c_uq c && negb su).
    { rewrite <- U1. unfold lc_comments. destruct comments; reflexivity. }
    split; [constructor; auto|]. split; [simpl; now rewrite N2, I2|]. simpl. rewrite P2, U2. split.
    + destruct (c_pk c && negb sp); simpl; [now rewrite N2, I3|exact I3].
    + destruct (c_uq c && negb su); simpl; [now rewrite N2, I4|exact I4].
Qed.

Lemma distinctb_nodup : forall l, NoDup l -> distinctb l = true.
Proof.
  induction l as [|x l IH]; intros D; [reflexivity|]. inversion D as [|? ? NI ND]; subst.
  change (negb (str_mem x l) && distinctb l = true). rewrite IH; auto. rewrite andb_true_r.
  apply negb_true_iff. destruct (str_mem x l) eqn:E; auto. apply str_mem_iff in E. contradiction.
Qed.

Lemma put_app : forall n b b' s, ~ In n (map b_name s) -> b_name b = n -> put_table n b' (s ++ [b]) = s ++ [b'].
Proof.
  intros n b b' s H E. unfold put_table. rewrite map_app. fold (put_table n b' s). rewrite put_absent; auto.
  simpl. subst n. now rewrite String.eqb_refl.
Qed.

Lemma find_app : forall n b s, ~ In n (map b_name s) -> b_name b = n -> find_table n (s ++ [b]) = Some b.
Proof.
  intros n b s H E. unfold find_table. induction s as [|x s IH]; simpl in *.
  - subst n. now rewrite String.eqb_refl.
  - destruct (String.eqb (b_name x) n) eqn:Ex; [apply String.eqb_eq in Ex; tauto|]. apply IH. tauto.
Qed.

Lemma one_key : forall (cs : list column) p, NoDup (map c_name cs) -> forall k, In k (map c_name (filter p cs)) <->
  exists c, In c cs /\ p c = true /\ c_name c = k.
Proof.
  intros cs p D k. rewrite in_map_iff. split; intros [c H].
  - destruct H as [E H]. apply filter_In in H. exists c. tauto.
  - exists c. rewrite filter_In. tauto.
Qed.

(** where the precondition holds, the unique constraint has its name *)
Definition keeps_unique (t : table) (b : dbtable) : Prop :=
  (sv_pre_holds sv = true -> (exists k, uq_of t k) -> In (Some (t_name t ++ suffix)%string) (map fst (b_uqs b))) /\
  (~ lone_unique t -> named_unique suffix t b).

Lemma lone_size : forall t, Nat.eqb (ss_size (uq_name_set t)) 1 = true -> lone_unique t.
Proof.
  intros t E. apply PeanoNat.Nat.eqb_eq in E. destruct (uq_name_set t) as [|k [|y l]] eqn:Eu; try discriminate.
  exists k. split; [apply uq_set; rewrite Eu; now left|]. intros k' K. apply uq_set in K. rewrite Eu in K. destruct K as [<-|[]]. reflexivity.
Qed.

Lemma create_one : forall author id t css id' s,
  new_create_table_cs fk author suffix comments id t = Some (css, id') -> well_formed t ->
  ~ In (t_name t) (map b_name s) ->
  exists b, run_log sv css s = Some (s ++ [b]) /\ fresh_table fk comments t b /\ keeps_unique t b.
Proof.
  intros author id t css id' s H [W1 W2] Hn. unfold new_create_table_cs in H.
  destruct (map_lq_columns fk comments _ _ (t_cols t)) as [lcs|] eqn:El; [|discriminate].
  destruct (map_lq_columns_spec _ _ _ _ El) as [F [N [PK UQ]]]; [intros c Hc; now apply W2|].
  apply (f_equal (fun o => match o with Some p => fst p | None => css end)) in H. cbv beta iota zeta in H.
  cbn [fst] in H. subst css.
  set (b0 := mkDbTable (t_name t) (t_desc t) (map new_dbcol lcs) (map lc_name (filter (declares k_pk) lcs))
               (map (fun lc => (None, [lc_name lc])) (filter (declares k_unique) lcs))).
  assert (R0 : apply_change sv s (LqCreateTable (t_name t) (t_desc t) lcs) = Some (s ++ [b0])).
  { cbn [apply_change]. rewrite (proj2 (find_none _ _) Hn). rewrite distinctb_nodup; auto. now rewrite N. }
  assert (HC : has_cols fk comments (t_cols t) b0) by (exists (map new_dbcol lcs); split; [reflexivity|exact F]).
  (* the stages as changes of the last table *)
  set (ch1 := LqAddPrimaryKey (t_name t) (ss_join (pk_name_set t) ", ")).
  set (ch2 := LqAddUniqueConstraint (t_name t) (ss_join (uq_name_set t) ", ") (t_name t ++ suffix)).
  assert (Named : forall b k, b_cols b = b_cols b0 -> In k (map c_name (t_cols t)) -> named_col k b = true).
  { intros b k E Hk. unfold named_col. rewrite E. change (named_col k b0 = true). eapply named_iff; eauto. }
  assert (S1 : exists b1, (if Nat.leb 2 (ss_size (pk_name_set t)) then table_step sv b0 ch1 else Some b0) = Some b1 /\
     b_name b1 = t_name t /\ b_remarks b1 = t_desc t /\ b_cols b1 = b_cols b0 /\ same_set (b_pk b1) (pk_of t) /\ b_uqs b1 = b_uqs b0).
  { destruct (Nat.leb 2 (ss_size (pk_name_set t))) eqn:E.
    - assert (NE : pk_name_set t <> []) by (intros C; rewrite C in E; discriminate).
      assert (CL : column_list (ss_join (pk_name_set t) ", ") = ss_slice (pk_name_set t)).
      { apply set_column_list; auto. intros k Hk. apply pk_set in Hk. destruct Hk as [c [Hc [_ <-]]]. now apply W2. }
      assert (KS : forall k, In k (ss_slice (pk_name_set t)) <-> pk_of t k).
      { intros k. rewrite ss_slice_in. apply pk_set. }
      assert (E0 : b_pk b0 = []).
      { unfold b0. cbn [b_pk]. rewrite PK. replace (Nat.ltb 1 (ss_size (pk_name_set t))) with true by (symmetry; exact E).
        clear. induction (t_cols t); simpl; auto. now rewrite andb_false_r. }
      unfold ch1. cbn [table_step]. rewrite CL, E0.
      rewrite (proj2 (forallb_forall _ _)).
      2:{ intros k Hk. apply Named; auto. apply pk_of_name. now apply KS. }
      eexists. split; [reflexivity|]. repeat split; try apply KS.
      cbn [b_cols set_pk set_cols]. eapply add_pk_noop; eauto; [split; auto|apply KS].
    - exists b0. repeat split; auto.
      + unfold b0. cbn [b_pk]. rewrite PK. replace (Nat.ltb 1 (ss_size (pk_name_set t))) with false by (symmetry; exact E).
        rewrite one_key; auto. intros [c Hc]. exists c. rewrite andb_true_r in Hc. exact Hc.
      + unfold b0. cbn [b_pk]. rewrite PK. replace (Nat.ltb 1 (ss_size (pk_name_set t))) with false by (symmetry; exact E).
        rewrite one_key; auto. intros [c Hc]. exists c. now rewrite andb_true_r. }
  destruct S1 as [b1 [S1 [N1 [M1 [C1 [K1 U1]]]]]].
  assert (US : forall k, In k (ss_slice (uq_name_set t)) <-> uq_of t k).
  { intros k. rewrite ss_slice_in. apply uq_set. }
  assert (UC : forall u, In u (b_uqs b1) -> fst u = None /\ same_set (snd u) (uq_of t)).
  { intros u Hu. rewrite U1 in Hu. unfold b0 in Hu. cbn [b_uqs] in Hu.
    rewrite <- (map_map lc_name (fun k => (@None string, [k]))), UQ in Hu.
    apply in_map_iff in Hu. destruct Hu as [k [<- Hk]]. split; auto. apply one_key in Hk; auto.
    destruct Hk as [c [Hc [Hu <-]]]. apply andb_true_iff in Hu. destruct Hu as [Hu Hs]. apply negb_true_iff in Hs.
    assert (Huk : uq_of t (c_name c)) by (exists c; auto).
    assert (L : uq_name_set t = [c_name c]).
    { apply uq_set in Huk. destruct (uq_name_set t) as [|x [|y l]] eqn:Eu.
      - destruct Huk.
      - destruct Huk as [->|[]]. reflexivity.
      - discriminate. }
    intros k. simpl. rewrite <- uq_set, L. simpl. tauto. }
  assert (S2 : (exists k, uq_of t k) -> exists b2, table_step sv b1 ch2 = Some b2 /\
     b_name b2 = t_name t /\ b_remarks b2 = t_desc t /\ b_cols b2 = b_cols b0 /\ b_pk b2 = b_pk b1 /\ some_unique t b2 /\
     b_uqs b2 = (Some (t_name t ++ suffix)%string, ss_slice (uq_name_set t)) :: b_uqs b1).
  { intros [k0 Hk0].
    assert (NE : uq_name_set t <> []) by (intros C; apply uq_set in Hk0; rewrite C in Hk0; destruct Hk0).
    assert (CL : column_list (ss_join (uq_name_set t) ", ") = ss_slice (uq_name_set t)).
    { apply set_column_list; auto. intros k Hk. apply uq_set in Hk. destruct Hk as [c [Hc [_ <-]]]. now apply W2. }
    unfold ch2. cbn [table_step]. rewrite CL.
    replace (existsb _ (b_uqs b1)) with false.
    2:{ symmetry. apply not_true_iff_false. rewrite existsb_exists. intros [u [Hu C]]. apply UC in Hu.
        destruct Hu as [Hu _]. rewrite Hu in C. discriminate. }
    rewrite (proj2 (forallb_forall _ _)).
    2:{ intros k Hk. apply Named; auto. apply uq_of_name. now apply US. }
    eexists. split; [reflexivity|]. repeat split; auto.
    - intros Hk. cbn [b_uqs set_uqs] in H. destruct H as [<-|H]; [now apply US|]. apply UC in H. now apply H.
    - intros Hk. cbn [b_uqs set_uqs] in H. destruct H as [<-|H]; [now apply US|]. apply UC in H. now apply H.
    - intros _. discriminate.
    - intros _. eauto. }
  assert (Fin : forall b, b_name b = t_name t -> b_remarks b = t_desc t -> b_cols b = b_cols b0 ->
     same_set (b_pk b) (pk_of t) -> some_unique t b -> fresh_table fk comments t b).
  { intros b Q1 Q2 Q3 Q4 Q5. split.
    - split; auto. split; auto. split; auto. eapply has_cols_eq; [exact Q3|exact HC].
    - rewrite Q3. exact F. }
  (* run the change sets *)
  assert (Ap : forall b ch b', b_name b = t_name t -> (ch = ch1 \/ ch = ch2) -> table_step sv b ch = Some b' ->
    apply_change sv (s ++ [b]) ch = Some (s ++ [b'])).
  { intros b ch b' Q1 Q2 Q3. destruct Q2 as [-> | ->]; cbn [apply_change ch1 ch2 target];
      rewrite find_app by auto; fold ch1; fold ch2; rewrite Q3, put_app; auto. }
  assert (R1 : run_log sv (fst (lq_emit author (Nat.leb 2 (ss_size (pk_name_set t))) false [ch1]
       (lq_emit author true false [LqCreateTable (t_name t) (t_desc t) lcs] ([], id)))) s = Some (s ++ [b1])).
  { cbn [lq_emit fst snd app]. destruct (Nat.leb 2 (ss_size (pk_name_set t))); cbn [lq_emit fst snd app].
    - unfold run_log. cbn [fold_opt]. unfold run_change_set at 1. cbn [lq_pre lq_changes andb fold_opt]. rewrite R0.
      cbn [fold_opt]. unfold run_change_set. cbn [lq_pre lq_changes andb fold_opt].
      rewrite (Ap b0 ch1 b1); auto.
    - injection S1 as <-. unfold run_log. cbn [fold_opt]. unfold run_change_set at 1.
      cbn [lq_pre lq_changes andb fold_opt]. rewrite R0. reflexivity. }
  match type of R1 with run_log sv (fst ?st) s = _ => set (st1 := st) in * end.
  cbn [fst]. clearbody st1. destruct st1 as [css1 id1]. cbn [fst] in R1.
  destruct (Nat.leb 1 (ss_size (uq_name_set t))) eqn:E; cbn [lq_emit fst snd].
  - rewrite (run_log_app _ _ _ _ _ R1). unfold run_log. cbn [fold_opt]. unfold run_change_set.
    cbn [lq_pre lq_changes].
    assert (Hex : exists k, uq_of t k) by (apply uq_size; exact E).
    destruct (Nat.eqb (ss_size (uq_name_set t)) 1 && negb (sv_pre_holds sv)) eqn:Ep.
    + exists b1. split; [reflexivity|].
      split; [|split; [intros P; rewrite P, andb_false_r in Ep; discriminate
                      |intros NL; destruct NL; apply lone_size; apply andb_true_iff in Ep; tauto]].
      apply Fin; auto. split; [intros u Hu; now apply UC|].
      split; auto. intros _. apply andb_true_iff in Ep. destruct Ep as [Ep _]. apply PeanoNat.Nat.eqb_eq in Ep.
      rewrite U1. unfold b0. cbn [b_uqs]. destruct Hex as [k [c [Hc [Hu Hk]]]].
      rewrite <- (map_map lc_name (fun k => (@None string, [k]))), UQ.
      assert (HIn : In k (map c_name (filter (fun c => c_uq c && negb (Nat.ltb 1 (ss_size (uq_name_set t)))) (t_cols t)))).
      { apply one_key; auto. exists c. rewrite Hu, Ep. auto. }
      intros C. apply map_eq_nil in C. rewrite C in HIn. destruct HIn.
    + destruct (S2 Hex) as [b2 [S2' [N2 [M2 [C2 [K2 [U2 V2]]]]]]].
      cbn [fold_opt]. rewrite (Ap b1 ch2 b2); auto. exists b2. split; auto.
      split; [|split; [intros _ _; rewrite V2; now left|]].
      2:{ intros NL. right. exists (ss_slice (uq_name_set t)). split; [|split; [exact US|exact Hex]]. rewrite V2. f_equal.
          rewrite U1. unfold b0. cbn [b_uqs]. rewrite <- (map_map lc_name (fun k => (@None string, [k]))), UQ.
          replace (Nat.ltb 1 (ss_size (uq_name_set t))) with true.
          - clear. induction (t_cols t); simpl; auto. now rewrite andb_false_r.
          - symmetry. apply PeanoNat.Nat.ltb_lt. apply PeanoNat.Nat.leb_le in E.
            destruct (Nat.eqb (ss_size (uq_name_set t)) 1) eqn:E1; [destruct NL; now apply lone_size|].
            apply PeanoNat.Nat.eqb_neq in E1. lia. }
      apply Fin; auto.
      intros k. rewrite K2. apply K1.
  - exists b1. split; [exact R1|].
    assert (Hno : ~ exists k, uq_of t k).
    { intros C. apply uq_size in C. unfold Nat.ltb in C. congruence. }
    assert (NU : b_uqs b1 = []).
    { rewrite U1. unfold b0. cbn [b_uqs]. rewrite <- (map_map lc_name (fun k => (@None string, [k]))), UQ.
    destruct (filter (fun c => c_uq c && negb (Nat.ltb 1 (ss_size (uq_name_set t)))) (t_cols t)) as [|c l] eqn:Em; auto.
    exfalso. assert (Hk : In c (c :: l)) by now left. rewrite <- Em in Hk. apply filter_In in Hk.
    destruct Hk as [Hc Hu]. apply andb_true_iff in Hu. apply Hno. exists (c_name c), c. tauto. }
    split; [|split; [intros _ C; contradiction|intros _; now left]]. apply Fin; auto.
    split; [intros u Hu; now apply UC|]. split; [contradiction|]. intros C. now destruct (C NU).
Qed.

Lemma create_many : forall author ts ll s,
  Forall2 (fun t cs => exists id0 id1, new_create_table_cs fk author suffix comments id0 t = Some (cs, id1)) ts ll ->
  (forall t, In t ts -> well_formed t /\ ~ In (t_name t) (map b_name s)) -> NoDup (map t_name ts) ->
  exists bs, run_log sv (concat ll) s = Some (s ++ bs) /\ Forall2 (fresh_table fk comments) ts bs /\ Forall2 keeps_unique ts bs.
Proof.
  intros author ts ll s F. revert s. induction F as [|t cs ts ll [id0 [id1 H]] F IH]; intros s W D.
  - exists []. rewrite app_nil_r. split; [reflexivity|split; constructor].
  - simpl in D. inversion D as [|? ? NI ND]; subst. destruct (W t (or_introl eq_refl)) as [W1 W2].
    destruct (create_one _ _ _ _ _ s H W1 W2) as [b [R [B U]]]. cbn [concat]. rewrite (run_log_app _ _ _ _ _ R).
    destruct (IH (s ++ [b])) as [bs [R' [F' U']]]; auto.
    + intros x Hx. destruct (W x (or_intror Hx)) as [X1 X2]. split; auto. rewrite map_app, in_app_iff. intros [C|[C|[]]]; auto.
      destruct B as [[B _] _]. apply NI. rewrite <- B, C. now apply in_map.
    + exists (b :: bs). rewrite R', <- app_assoc. split; [reflexivity|]. split; now constructor.
Qed.
End Tables.

(** ** C27 *)

Lemma passes_select : forall f ts, filter (passes f) ts = select f ts.
Proof.
  intros [g|] ts; simpl; auto. induction ts; simpl; auto. now rewrite IHts.
Qed.

Lemma lq_generate_named : forall fk sv o sc css,
  lq_generate fk o sc = Some css ->
  NoDup (map t_name (select (lo_filter o) (s_tables sc))) ->
  (forall t, In t (select (lo_filter o) (s_tables sc)) -> well_formed t) ->
  exists bs, run_log sv css [] = Some bs /\
    Forall2 (fresh_table fk (lo_comments o)) (select (lo_filter o) (s_tables sc)) bs /\
    Forall2 (keeps_unique sv (lo_suffix o)) (select (lo_filter o) (s_tables sc)) bs.
Proof.
  intros fk sv o sc css H. unfold lq_generate in H. rewrite <- passes_select.
  assert (G : forall ts id css, generate_tables fk (s_author sc) (lo_suffix o) (lo_comments o) (lo_filter o) ts id = Some css ->
    exists ll, css = concat ll /\
      Forall2 (fun t cs => exists id0 id1, new_create_table_cs fk (s_author sc) (lo_suffix o) (lo_comments o) id0 t = Some (cs, id1))
        (filter (passes (lo_filter o)) ts) ll).
  { clear. induction ts as [|t ts IH]; intros id css H; simpl in H.
    - injection H as <-. exists []. split; auto. constructor.
    - simpl. destruct (passes (lo_filter o) t); simpl in H; [|eauto].
      destruct (new_create_table_cs _ _ _ _ (bump_major id) t) as [[c1 i1]|] eqn:E; [|discriminate].
      destruct (generate_tables _ _ _ _ _ ts i1) as [r|] eqn:Er; [|discriminate]. injection H as <-.
      destruct (IH _ _ Er) as [ll [-> F]]. exists (c1 :: ll). split; auto. constructor; eauto. }
  destruct (G _ _ _ H) as [ll [-> F]]. intros D W.
  destruct (create_many fk sv (lo_comments o) (lo_suffix o) _ _ _ [] F) as [bs [R [B U]]]; auto.
  eauto.
Qed.

Lemma lq_generate_runs : forall fk sv o sc css,
  lq_generate fk o sc = Some css ->
  NoDup (map t_name (select (lo_filter o) (s_tables sc))) ->
  (forall t, In t (select (lo_filter o) (s_tables sc)) -> well_formed t) ->
  exists bs, run_log sv css [] = Some bs /\
    Forall2 (fresh_table fk (lo_comments o)) (select (lo_filter o) (s_tables sc)) bs.
Proof.
  intros fk sv o sc css H D W. destruct (lq_generate_named fk sv o sc css H D W) as [bs [R [B _]]]. eauto.
Qed.

(** ** C25 *)

Lemma name_partition : forall {A} (name : A -> string) l parts,
  NoDup (map name l) -> NoDup (map name parts) -> (forall x, In x parts -> In x l) ->
  (forall n, In n (map name l) -> In n (map name parts)) -> Permutation l parts.
Proof.
  intros A name l parts Dl Dp H1 H2. apply NoDup_Permutation; [eapply NoDup_map_inv; eauto|eapply NoDup_map_inv; eauto|].
  intros x. split; auto. intros Hx. assert (Hn : In (name x) (map name parts)) by (apply H2; now apply in_map).
  apply in_map_iff in Hn. destruct Hn as [y [E Hy]].
  assert (x = y); [|now subst]. pose proof (H1 _ Hy) as Hy'. clear - Dl E Hx Hy'.
  induction l as [|z l IH]; [destruct Hx|]. simpl in Dl. inversion Dl as [|? ? NI ND]; subst.
  destruct Hx as [->|Hx], Hy' as [->|Hy]; auto.
  - exfalso. apply NI. rewrite <- E. now apply in_map.
  - exfalso. apply NI. rewrite E. now apply in_map.
Qed.

Lemma migratable_sub : forall fk sv l1 l2 old t, (forall ch, In ch l1 -> In ch l2) ->
  migratable fk sv l2 old t -> migratable fk sv l1 old t.
Proof.
  intros fk sv l1 l2 old t H [M1 M2 M3 M4 M5 M6]. constructor; auto.
  - destruct M5 as [M|[M|[k [A B]]]]; auto. right. right. exists k. auto.
  - destruct M6 as [M|[[c [A B]]|M]]; auto. right. left. exists c. auto.
Qed.

Lemma lq_all_concat : forall ll, lq_all (concat ll) = concat (map lq_all ll).
Proof. induction ll; simpl; auto. now rewrite lq_all_app, IHll. Qed.

Lemma lq_rename_table_all : forall author suffix id i nw old css id',
  lq_rename_table author suffix id nw old = (css, id') ->
  lq_all css = lq_rename_all suffix (i, (nw, old)) /\ no_pre css.
Proof.
  intros author suffix id i nw old css id' H. unfold lq_rename_table in H.
  apply (f_equal fst) in H. cbn [fst] in H. subst css. unfold lq_rename_all. cbn [fst snd].
  split.
  - rewrite !lq_emit_changes. cbn [fst]. destruct (Nat.ltb 0 (ss_size (uq_name_set old))); reflexivity.
  - do 2 apply no_pre_emit. destruct (Nat.ltb 0 (ss_size (uq_name_set old))); repeat constructor.
Qed.

Lemma kept_fst : forall f fs its, map (fun p => snd (fst p)) (kept f fs its) =
  map snd (filter (fun it => passes f (snd it) && str_in (t_name (snd it)) (map t_name fs)) its).
Proof.
  intros f fs. unfold kept. induction its as [|[i t] its IH]; simpl; auto. rewrite map_app, IH.
  destruct (passes f t); simpl; auto. destruct (tables_by_name fs (t_name t)) as [o|] eqn:E.
  - assert (S : str_in (t_name t) (map t_name fs) = true).
    { apply str_in_iff. apply tables_by_name_some in E. destruct E as [E1 E2]. rewrite <- E2. now apply in_map. }
    rewrite S. reflexivity.
  - apply tables_by_name_none in E. apply str_in_false in E. rewrite E. reflexivity.
Qed.

Lemma NoDup_filter_names : forall (l : list (nat * table)) (p : nat * table -> bool),
  NoDup (map t_name (map snd l)) -> NoDup (map t_name (map snd (filter p l))).
Proof.
  induction l as [|x l IH]; simpl; intros p D; auto. inversion D as [|? ? NI ND]; subst.
  destruct (p x); simpl; auto. constructor; auto. intros C. apply NI. apply in_map_iff in C.
  destruct C as [y [E C]]. apply in_map_iff in C. destruct C as [z [E2 C]]. apply filter_In in C.
  rewrite <- E, <- E2. apply in_map, in_map. tauto.
Qed.

(** tables with more than one unique column, or none, have the constraint that the next diff expects *)
Definition left_table (fk : string -> bool) (comments : bool) (suffix : string) (t : table) (b : dbtable) : Prop :=
  good_table fk comments t b /\ (~ lone_unique t -> has_table fk comments suffix t b).

Lemma lq_diff_leaves : forall fk sv ordT ordC o from to css s,
  lq_diff fk ordT ordC o from to = Some css ->
  iteration_order ordT -> (forall i, iteration_order (ordC i)) ->
  NoDup (map t_name (s_tables from)) -> NoDup (map t_name (s_tables to)) ->
  (forall t, In t (s_tables from) \/ In t (s_tables to) -> well_formed t) ->
  (forall t old, In t (s_tables to) -> selected (lo_filter o) t -> In old (s_tables from) -> t_name old = t_name t ->
     migratable fk sv (lq_all css) old t) ->
  (forall t old, In t (s_tables to) -> In old (s_tables from) -> lo_comments o = true ->
     In (LqRenameTable (t_name t) (t_name old)) (lq_all css) -> t_desc t = t_desc old) ->
  is_database (has_table fk (lo_comments o) (lo_suffix o)) (s_tables from) s ->
  exists s', run_log sv css s = Some s' /\
    is_database (left_table fk (lo_comments o) (lo_suffix o)) (select (lo_filter o) (s_tables to)) s'.
Proof.
  intros fk sv ordT ordC o from to css s H HT HC Df Dt W M Rn [bs0 [P0 F0]].
  unfold lq_diff in H.
  destruct (diff_schemas_shape _ _ _ _ _ _ _ _ _ H HT)
    as [l1 [css2 [l3 [l4 [ren [rem [E [F1 [F2 [F3 [F4 [N [G [P [R [NR MX]]]]]]]]]]]]]]]].
  clear H MX N. set (author := choose_author (lo_author o) to) in *.
  set (comments := lo_comments o) in *. set (suffix := lo_suffix o) in *. set (f := lo_filter o) in *.
  set (fs := s_tables from) in *. set (K := kept f fs (with_pos (s_tables to))) in *.
  set (added := filter (is_added f fs) (with_pos (s_tables to))) in *.
  set (created := not_renamed added ren) in *. set (Rs := ordT ren) in *.
  assert (PR : Permutation ren Rs) by (symmetry; apply HT).
  destruct G as [g [Dg [Pg Hg]]].
  (* the dropped tables *)
  assert (FD : exists D, map t_name D = ss_slice rem /\ lq_all css2 = map LqDropTable (map t_name D) /\ no_pre css2 /\
     forall t, In t D -> In t fs).
  { clear - F2. induction F2 as [|n cs ns css [id [old [-> L]]] F [D [I1 [I2 [I3 I4]]]]].
    - exists []. repeat split; auto; try constructor. intros t [].
    - apply tables_by_name_some in L. destruct L as [L1 L2]. exists (old :: D). simpl. rewrite I1, L2.
      split; auto. split; [now rewrite I2, I1|]. split; [constructor; auto|]. intros t [<-|Ht]; auto. }
  destruct FD as [D [D1 [D2 [D3 D4]]]].
  (* selected tables of the new schema *)
  assert (DA : NoDup (map t_name (map snd added))).
  { unfold added. apply (NoDup_filter_names (with_pos (s_tables to))). now rewrite with_pos_snd. }
  assert (AddIn : forall t, In t (map snd added) -> In t (s_tables to) /\ passes f t = true /\ ~ In (t_name t) (map t_name fs)).
  { intros t Ht. apply in_map_iff in Ht. destruct Ht as [[i x] [Ex Ht]]. simpl in Ex. subst x.
    unfold added in Ht. apply filter_In in Ht. destruct Ht as [Ht1 Ht2]. unfold is_added in Ht2. simpl in Ht2.
    apply andb_true_iff in Ht2. destruct Ht2 as [Ht2 Ht3]. apply negb_true_iff in Ht3. apply str_in_false in Ht3.
    split; [apply with_pos_in; eauto|]. auto. }
  assert (PA : Permutation (map snd added) (map (fun r => fst (snd r)) Rs ++ created)).
  { rewrite P. apply Permutation_app_tail. now apply Permutation_map. }
  assert (PT : Permutation (select f (s_tables to)) (map (fun p => snd (fst p)) K ++ map (fun r => fst (snd r)) Rs ++ created)).
  { rewrite <- PA. unfold K. rewrite kept_fst, <- passes_select. unfold added.
    rewrite <- (with_pos_snd (s_tables to)) at 1. generalize (with_pos (s_tables to)). clear.
    induction l as [|[i t] l IH]; simpl; auto. unfold is_added at 1. unfold in_names at 1. simpl. destruct (passes f t); simpl; auto.
    destruct (str_in (t_name t) (map t_name fs)); simpl.
    - apply perm_skip. exact IH.
    - etransitivity; [constructor; exact IH|apply Permutation_middle]. }
  (* tables of the old schema *)
  assert (KIn : forall i t old, In (i, t, old) K -> In t (s_tables to) /\ selected f t /\ In old fs /\ t_name old = t_name t).
  { intros i t old. apply kept_in. }
  assert (PN : Permutation g (map t_name (D ++ map (fun r => snd (snd r)) Rs))).
  { rewrite map_app, D1, map_map, Pg. rewrite Permutation_app_comm. apply Permutation_app.
    - symmetry. apply ss_slice_perm.
    - now apply Permutation_map. }
  assert (RIn : forall i nw old, In (i, (nw, old)) Rs -> In nw (map snd added) /\ In old fs /\ t_cols nw = t_cols old).
  { intros i nw old Hi. apply (Permutation_in _ (Permutation_sym PR)) in Hi. apply R in Hi. destruct Hi as [Q1 [Q2 Q3]].
    apply tables_by_name_some in Q2. split; [apply in_map_iff; exists (i, nw); auto|]. tauto. }
  assert (PO : Permutation fs (map snd K ++ D ++ map (fun r => snd (snd r)) Rs)).
  { apply (name_partition t_name); auto.
    - rewrite map_app. apply NoDup_app_intro.
      + replace (map t_name (map snd K)) with (map (fun p => t_name (snd (fst p))) K).
        * apply kept_nodup. now rewrite with_pos_snd.
        * rewrite map_map. apply map_ext_in. intros [[i t] old] Hi. apply KIn in Hi. simpl. symmetry. tauto.
      + eapply Permutation_NoDup; [exact PN|exact Dg].
      + intros n Hn C. apply (Permutation_in _ (Permutation_sym PN)) in C. apply Hg in C. destruct C as [_ C].
        apply in_map_iff in Hn. destruct Hn as [old [<- Hn]]. apply in_map_iff in Hn. destruct Hn as [[[i t] old'] [Eo Hn]].
        simpl in Eo. subst old'. apply KIn in Hn. apply C. exists t. split; [tauto|]. split; [apply passes_selected; tauto|].
        symmetry. tauto.
    - intros x Hx. rewrite !in_app_iff in Hx. destruct Hx as [Hx|[Hx|Hx]]; auto.
      + apply in_map_iff in Hx. destruct Hx as [[[i t] old] [Eo Hx]]. simpl in Eo. subst old. now apply KIn in Hx.
      + apply in_map_iff in Hx. destruct Hx as [[i [nw old]] [Eo Hx]]. simpl in Eo. subst old. now apply RIn in Hx.
    - intros n Hn. rewrite map_app, in_app_iff.
      destruct (in_dec string_dec n (map t_name (map snd K))) as [Y|Y]; auto. right.
      apply (Permutation_in _ PN). apply Hg. split; auto. intros [t [T1 [T2 T3]]]. apply Y.
      apply in_map_iff in Hn. destruct Hn as [old [En Ho]].
      destruct (kept_complete f fs (s_tables to) t old) as [i Hi]; auto; [now apply passes_selected|congruence|].
      rewrite <- En. apply in_map. apply in_map_iff. exists (i, t, old). auto. }
  (* the state *)
  destruct (Permutation_Forall2 PO F0) as [bs1 [P1 F0']].
  apply Forall2_app_inv_l in F0'. destruct F0' as [bK [bDR [FK [FDR EB]]]].
  apply Forall2_app_inv_l in FDR. destruct FDR as [bD [bR [FDd [FR EB2]]]]. subst bs1 bDR.
  assert (Ps : Permutation s (bK ++ bD ++ bR)) by (rewrite P0; exact P1).
  assert (NS : forall ts bs, Forall2 (has_table fk comments suffix) ts bs -> map b_name bs = map t_name ts).
  { intros ts bs F. induction F as [|t b ts bs [B _] F IH]; simpl; congruence. }
  assert (Dn : NoDup (map b_name s)).
  { eapply Permutation_NoDup; [symmetry; apply Permutation_map; exact P0|]. rewrite (NS _ _ F0). exact Df. }
  (* kept tables *)
  assert (L1 : no_pre (concat l1) /\
     Forall2 (fun p chs => Forall (fun ch => inside ch /\ target ch = t_name (fst p)) chs /\
       t_name (snd p) = t_name (fst p) /\
       forall b, has_table fk comments suffix (snd p) b ->
         exists b', fold_opt (table_step sv) chs b = Some b' /\ has_table fk comments suffix (fst p) b')
       (map (fun p => (snd (fst p), snd p)) K) (map lq_all l1)).
  { assert (Sub : forall cs, In cs l1 -> forall ch, In ch (lq_all cs) -> In ch (lq_all css)).
    { intros cs Hcs ch Hch. rewrite E, lq_all_app, in_app_iff. left. rewrite lq_all_concat. apply in_concat.
      exists (lq_all cs). split; auto. now apply in_map. }
    clear - F1 Sub KIn M W HC. induction F1 as [|[[i t] old] cs K0 l1 [id0 [id1 [_ Hd]]] F IH]; simpl.
    - split; constructor.
    - destruct IH as [I1 I2].
      { intros j t' old' Hj. apply (KIn j). now right. }
      { intros cs' Hcs. apply Sub. now right. }
      simpl in Hd. destruct (lq_all_inside _ _ _ _ _ _ _ _ _ _ Hd (HC i)) as [X1 X2].
      destruct (KIn i t old (or_introl eq_refl)) as [Q1 [Q2 [Q3 Q4]]].
      split; [now apply Forall_app|]. constructor; auto. split; auto. split; auto.
      intros b Hb. simpl. eapply table_migrates; eauto. eapply migratable_sub; [|apply M; auto].
      apply Sub. now left. }
  destruct L1 as [L1 L2].
  destruct (kept_tables fk sv comments suffix (map (fun p => (snd (fst p), snd p)) K) (map lq_all l1) bK (bD ++ bR) s L2)
    as [s1 [bK' [R1 [P1' [FK' [Dn1 PN1]]]]]]; auto.
  { rewrite map_map. exact FK. }
  rewrite map_map in FK'. cbn [fst] in FK'.
  assert (RL1 : run_log sv (concat l1) s = Some s1) by (rewrite run_no_pre, lq_all_concat; auto).
  rewrite E, (run_log_app _ _ _ _ _ RL1).
  (* dropped tables *)
  destruct (dropped_tables sv bD (bR ++ bK') s1) as [s2 [R2 P2]]; auto.
  { rewrite P1', (app_assoc bD). apply Permutation_app_comm. }
  assert (RL2 : run_log sv css2 s1 = Some s2).
  { rewrite run_no_pre, D2; auto. rewrite <- (NS _ _ FDd). exact R2. }
  rewrite (run_log_app _ _ _ _ _ RL2).
  (* renamed tables *)
  assert (N1s : forall n, In n (map b_name s1) -> In n (map t_name fs)).
  { intros n Hn. apply (Permutation_in _ PN1) in Hn. apply (Permutation_in _ (Permutation_map b_name P0)) in Hn.
    now rewrite (NS _ _ F0) in Hn. }
  assert (N2s : forall n, In n (map b_name s2) -> In n (map b_name s1)).
  { intros n Hn. apply (Permutation_in _ (Permutation_map b_name P2)) in Hn.
    apply (Permutation_in _ (Permutation_sym (Permutation_map b_name P1'))).
    rewrite !map_app, !in_app_iff in *. tauto. }
  assert (Dn2 : NoDup (map b_name s2)).
  { eapply Permutation_NoDup; [symmetry; apply Permutation_map; exact P2|].
    assert (Q : NoDup (map b_name (bK' ++ bD ++ bR))) by (eapply Permutation_NoDup; [apply Permutation_map; exact P1'|exact Dn1]).
    assert (Q' : NoDup (map b_name (bD ++ bR ++ bK'))).
    { eapply Permutation_NoDup; [apply Permutation_map|exact Q]. rewrite (app_assoc bD). apply Permutation_app_comm. }
    rewrite map_app in Q'. now apply NoDup_app_r in Q'. }
  assert (DAR : NoDup (map t_name (map (fun r => fst (snd r)) Rs ++ created))).
  { eapply Permutation_NoDup; [apply Permutation_map; exact PA|exact DA]. }
  assert (L3 : lq_all (concat l3) = flat_map (lq_rename_all suffix) Rs /\ no_pre (concat l3)).
  { clear - F3. induction F3 as [|[i [nw old]] cs l l' [id0 [id1 [_ Hr]]] F [I1 I2]]; cbn [concat flat_map].
    - split; constructor.
    - cbn [fst snd] in Hr. destruct (lq_rename_table_all _ _ _ i _ _ _ _ Hr) as [X1 X2].
      rewrite lq_all_app, X1, I1. split; auto. now apply Forall_app. }
  destruct L3 as [L3 L3'].
  destruct (renamed_tables fk sv comments suffix Rs bR bK' s2) as [s3 [bR' [R3 [FR' P3]]]]; auto.
  { rewrite map_app in DAR. apply NoDup_app_l in DAR. rewrite map_map in DAR. exact DAR. }
  { intros [i [nw old]] Hi. cbn [fst snd]. destruct (RIn _ _ _ Hi) as [X1 [X2 X3]]. apply AddIn in X1.
    split; [intros C; apply N2s, N1s in C; tauto|]. split; auto. split; [apply W; tauto|]. intros Ec.
    apply Rn; auto; [tauto|]. rewrite E, !lq_all_app, !in_app_iff. right. right. left. rewrite L3. apply in_flat_map.
    exists (i, (nw, old)). split; auto. unfold lq_rename_all. apply in_or_app. right. apply in_or_app. left. now left. }
  assert (RL3 : run_log sv (concat l3) s2 = Some s3) by (rewrite run_no_pre, L3; auto).
  rewrite (run_log_app _ _ _ _ _ RL3).
  (* created tables *)
  assert (CrIn : forall t, In t created -> In t (map snd added)).
  { intros t Ht. apply (Permutation_in _ (Permutation_sym PA)). apply in_or_app. now right. }
  destruct (create_many fk sv comments suffix author created l4 s3) as [bC [R4 [FC FN]]].
  { clear - F4. induction F4 as [|t cs l l' [id0 [id1 [_ Hc]]] F IH]; constructor; eauto. }
  { intros t Ht. split; [apply W; right; now apply AddIn, CrIn|]. intros C.
    apply (Permutation_in _ (Permutation_map b_name P3)) in C. rewrite map_app, in_app_iff in C. destruct C as [C|C].
    - rewrite (NS _ _ FR') in C. rewrite map_app in DAR. apply (NoDup_app_disj _ _ _ DAR C). now apply in_map.
    - apply CrIn, AddIn in Ht. apply Ht. apply N1s, N2s.
      eapply Permutation_in; [symmetry; apply Permutation_map; exact P2|]. rewrite map_app. apply in_or_app. now right. }
  { rewrite map_app in DAR. now apply NoDup_app_r in DAR. }
  exists (s3 ++ bC). split; [exact R4|].
  assert (Q : Permutation (s3 ++ bC) (bK' ++ bR' ++ bC)).
  { rewrite P3. rewrite (app_assoc bK'). apply Permutation_app_tail. apply Permutation_app_comm. }
  assert (FF : Forall2 (left_table fk comments suffix) (map (fun p => snd (fst p)) K ++ map (fun r => fst (snd r)) Rs ++ created) (bK' ++ bR' ++ bC)).
  { assert (HG : forall ts bs, Forall2 (has_table fk comments suffix) ts bs -> Forall2 (left_table fk comments suffix) ts bs).
    { intros ts bs F. induction F; constructor; auto. split; [eapply has_good; eauto|auto]. }
    apply Forall2_app; [now apply HG|]. apply Forall2_app; [now apply HG|].
    clear - FC FN. revert FN. induction FC as [|t b ts bs B FC IH]; intros FN; constructor; inversion FN as [|? ? ? ? [_ N] FN']; subst; auto.
    destruct B as [(B1 & B2 & B3 & B4 & B5) B6]. split; [exact (conj B1 (conj B2 (conj B3 (conj B4 B5))))|]. intros L. exact (conj B1 (conj B2 (conj B3 (conj B4 (N L))))). }
  destruct (Permutation_Forall2 (Permutation_sym PT) FF) as [bs' [Pb Fb]].
  exists bs'. split; auto. now rewrite Q.
Qed.

Lemma lq_diff_migrates : forall fk sv ordT ordC o from to css s,
  lq_diff fk ordT ordC o from to = Some css ->
  iteration_order ordT -> (forall i, iteration_order (ordC i)) ->
  NoDup (map t_name (s_tables from)) -> NoDup (map t_name (s_tables to)) ->
  (forall t, In t (s_tables from) \/ In t (s_tables to) -> well_formed t) ->
  (forall t old, In t (s_tables to) -> selected (lo_filter o) t -> In old (s_tables from) -> t_name old = t_name t ->
     migratable fk sv (lq_all css) old t) ->
  (forall t old, In t (s_tables to) -> In old (s_tables from) -> lo_comments o = true ->
     In (LqRenameTable (t_name t) (t_name old)) (lq_all css) -> t_desc t = t_desc old) ->
  is_database (has_table fk (lo_comments o) (lo_suffix o)) (s_tables from) s ->
  exists s', run_log sv css s = Some s' /\
    is_database (good_table fk (lo_comments o)) (select (lo_filter o) (s_tables to)) s'.
Proof.
  intros fk sv ordT ordC o from to css s H HT HC Df Dt W M Rn S.
  destruct (lq_diff_leaves fk sv ordT ordC o from to css s H HT HC Df Dt W M Rn S) as (s' & R & bs & P & F).
  exists s'. split; [exact R|]. exists bs. split; [exact P|]. clear - F. induction F as [|t b ts bs [G _] F IH]; constructor; auto.
Qed.
