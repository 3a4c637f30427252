(** A Flyway script and one table of the server *)
From Coq Require Import String Ascii List NArith ZArith Bool Lia Sorting.Permutation.
From Verif.Model Require Import GoString Util Octopus DiffCore Diff Mysql DiffWriters.
From Verif.Spec Require Import Text Order DiffSpec MysqlGrammar MysqlSpec FlywaySpec ServerSpec.
From Verif.Proofs Require Import ListLemmas StringLemmas OctopusProofs UtilProofs DiffCoreProofs DiffProofs DiffFacts ServerProofs.
Import ListNotations.
Local Open Scope string_scope.
Local Open Scope list_scope.

Lemma alterable_names : forall olds cs, Forall2 alterable_column olds cs ->
  map c_name cs = map c_name olds /\ map c_name (filter c_uq cs) = map c_name (filter c_uq olds).
Proof.
  intros olds cs F. induction F as [|o c olds cs A F [I1 I2]]; [auto|].
  destruct (al_same _ _ A) as [E1 [_ [_ [_ [_ [_ E7]]]]]]. cbn [map filter]. rewrite I1, E1, E7. split; auto.
  destruct (c_uq o); cbn [map]; rewrite I2; congruence.
Qed.

Lemma kept_combine : forall old olds cs its, NoDup (map c_name old) -> (forall o, In o olds -> In o old) ->
  Forall2 alterable_column olds cs -> map snd its = cs -> kept_cols old its = combine cs olds.
Proof.
  intros old olds cs its D S F. revert its. induction F as [|o c olds cs A F IH]; intros its E.
  - destruct its; [reflexivity|discriminate].
  - destruct its as [|[i x] its]; [discriminate|]. cbn [map snd] in E. injection E as -> E.
    unfold kept_cols. cbn [flat_map snd combine]. fold (kept_cols old its).
    destruct (al_same _ _ A) as [E1 _]. rewrite E1, column_name_map_nodup; auto; [|apply S; now left].
    cbn [app]. f_equal. apply IH; auto. intros z Z. apply S. now right.
Qed.

Lemma combine_alterable : forall olds cs c o, Forall2 alterable_column olds cs -> In (c, o) (combine cs olds) ->
  alterable_column o c /\ In o olds /\ In c cs.
Proof.
  intros olds cs c o F. induction F as [|o' c' olds cs A F IH]; cbn [combine]; intros I; [destruct I|].
  destruct I as [E|I]; [injection E as -> ->|destruct (IH I) as [H1 [H2 H3]]]; split; auto; split; [now left|now left|now right|now right].
Qed.

Lemma mid_described : forall olds cs xs, Forall2 alterable_column olds cs -> Forall2 mid_column (combine cs olds) xs ->
  (forall c o, In (c, o) (combine cs olds) -> c_notnull c || c_pk o = c_notnull c || c_pk c) ->
  Forall2 described_column cs xs.
Proof.
  intros olds cs xs F. revert xs. induction F as [|o c olds cs A F IH]; intros xs G H; cbn [combine] in *.
  - inversion G; subst. constructor.
  - inversion G as [|? x ? xs0 G1 G2]; subst. constructor.
    + apply described_column_iff. rewrite <- (H c o (or_introl eq_refl)). exact G1.
    + apply IH; auto. intros c' o' I. apply H. now right.
Qed.

Lemma mid_names : forall olds cs xs, Forall2 alterable_column olds cs -> Forall2 mid_column (combine cs olds) xs ->
  map q_name xs = map c_name cs /\
  forall x, In x xs -> exists c o, In (c, o) (combine cs olds) /\ q_name x = c_name c /\ q_autoinc x = c_autoinc c.
Proof.
  intros olds cs xs F. revert xs. induction F as [|o c olds cs A F IH]; intros xs G; cbn [combine] in *.
  - inversion G; subst. split; auto. intros x [].
  - inversion G as [|? x ? xs0 G1 G2]; subst. destruct (IH _ G2) as [I1 I2].
    destruct (is_column_name _ _ _ G1) as [N [Z _]]. cbn [fst] in N, Z. cbn [map]. rewrite N, I1. split; auto.
    intros y [<-|Y].
    + exists c, o. split; [now left|auto].
    + destruct (I2 y Y) as [c' [o' [J1 J2]]]. exists c', o'. split; [now right|auto].
Qed.

(** other keys of a described table *)
Lemma other_keys_start : forall suffix t k,
  starts_key k (other_keys t) ->
  starts_key k (map key_columns_of
    (key_if (map c_name (filter c_uq (t_cols t))) (KUniq (t_name t ++ suffix)) ++
     map (fun i => KIndex (ix_name i) (ix_cols i)) (t_indices t))).
Proof.
  intros suffix t k [r [E|I]].
  - exists r. rewrite map_app. apply in_or_app. left. rewrite E. now left.
  - exists r. rewrite map_app. apply in_or_app. right. rewrite map_map. cbn [key_columns_of]. exact I.
Qed.

Lemma described_names : forall suffix t b, described_table suffix t b -> map q_name (q_cols b) = map c_name (t_cols t).
Proof.
  intros suffix t b [_ [F _]]. induction F as [|c q cs qs H F IH]; auto. cbn [map]. apply described_column_iff in H.
  destruct (is_column_name _ _ _ H) as [-> _]. congruence.
Qed.

Lemma table_alters : forall author comments suffix ord id t old css id' b ls,
  diff_table author comments suffix ord id t old = Some (css, id') -> iteration_order ord ->
  acceptable suffix t -> alterable old t -> t_name old = t_name t -> described_table suffix old b ->
  Forall2 (sql_of suffix) (all_changes css) ls ->
  Forall (about (t_name t)) (concat ls) /\ exists b', alter_all (concat ls) b = Some b' /\ described_table suffix t b'.
Proof.
  intros author comments suffix ord id t old css id' b ls Hd Ho Ac At En Db L.
  pose proof (described_names _ _ _ Db) as NB. destruct b as [n qs pk ks]. cbn [q_cols] in NB.
  destruct Db as [D1 [D2 [D3 [D4 D5]]]]. cbn [q_table q_cols q_pk q_keys] in D1, D2, D3, D4.
  apply table_ok_iff in D5. pose proof (ok_names _ D5) as ND. cbn [q_cols] in ND. rewrite NB in ND.
  destruct (alterable_names _ _ (at_columns _ _ At)) as [NC NU].
  assert (Dt : NoDup (map c_name (t_cols t))) by now rewrite NC.
  assert (Hks : forall k, starts_key k (other_keys t) -> starts_key k (map key_columns_of ks)).
  { intros k Hk. rewrite D4, <- NU, En, <- (at_indices _ _ At). now apply other_keys_start. }
  assert (KS : unit -> ks = key_if (map c_name (filter c_uq (t_cols t))) (KUniq (t_name t ++ suffix)) ++
                    map (fun i => KIndex (ix_name i) (ix_cols i)) (t_indices t)).
  { intros _. now rewrite D4, <- NU, En, <- (at_indices _ _ At). }
  clear D4.
  destruct (diff_table_changes _ _ _ _ _ _ _ _ _ Hd Ho) as [removed [renamed [E [_ [[g [_ [Pg Hg]]] _]]]]].
  cbv zeta in E.
  assert (Eg : g = []).
  { destruct g as [|k g]; auto. exfalso. destruct (proj1 (Hg k) (or_introl eq_refl)) as [X Y]. apply Y. now rewrite NC. }
  rewrite Eg in Pg. apply Permutation_nil in Pg. apply app_eq_nil in Pg. destruct Pg as [P1 P2]. apply map_eq_nil in P1.
  subst removed renamed.
  assert (Er : ord [] = []) by (apply Permutation_nil; symmetry; apply Ho). rewrite Er in E.
  assert (UQ : ss_equals (uq_name_set t) (uq_name_set old) = true).
  { apply ss_equals_same; try apply uq_name_set_nodup. intros k. rewrite !uq_name_set_in.
    assert (Q : forall x, (exists c, In c (t_cols x) /\ c_uq c = true /\ c_name c = k) <-> In k (map c_name (filter c_uq (t_cols x)))).
    { intros x. rewrite in_map_iff. split; intros [c H]; exists c; rewrite filter_In in *; tauto. }
    rewrite !Q, NU. tauto. }
  rewrite UQ in E. cbn [negb andb] in E. change (ss_slice []) with (@nil string) in E. cbn [map app] in E. rewrite app_nil_r in E.
  rewrite (kept_combine (t_cols old) (t_cols old) (t_cols t) _ ND (fun o H => H) (at_columns _ _ At) (with_pos_snd _)) in E.
  rewrite E in L. clear E Hg Er Eg.
  apply Forall2_app_inv_l in L. destruct L as [l0 [l1 [L0 [L1 ->]]]].
  assert (S0 : concat l0 = []).
  { eapply silent_stmts; [|exact L0]. match goal with |- Forall _ (if ?x then _ else _) => destruct x end; repeat constructor. }
  rewrite concat_app, S0. cbn [app]. clear l0 L0 S0.
  apply Forall2_app_inv_l in L1. destruct L1 as [lc [lp [Lc [Lp ->]]]]. rewrite concat_app.
  assert (FO : Forall2 old_column (t_cols old) qs).
  { clear - D2. induction D2 as [|c q cs qs H F IH]; constructor; auto. now apply described_column_iff. }
  assert (PN : pk_not_null (mkSqlTable n qs pk ks)).
  { intros q Q I. cbn [q_cols q_pk] in *. destruct (Forall2_in_r _ _ _ _ FO Q) as [o [Io X]].
    destruct (is_column_name _ _ _ X) as [Nq [_ ->]]. rewrite Nq in I. apply D3, pk_column_flag in I; auto.
    rewrite I. apply orb_true_r. }
  destruct (columns_step suffix old t pk ks ND Ac At D3 Hks comments n _ _ (at_columns _ _ At) (fun _ H => H) (fun _ H => H)
              [] qs lc D5 PN FO (fun _ H => match H with end) Lc) as [A1 [xs [R1 [K1 [PN1 X1]]]]].
  cbn [app] in R1, K1, PN1.
  destruct (mid_names _ _ _ (at_columns _ _ At) X1) as [NX AX].
  assert (SK : ss_equals (pk_name_set t) (pk_name_set old) = true <-> same_key old t).
  { rewrite ss_equals_same by apply pk_name_set_nodup. unfold same_key.
    split; intros H k; specialize (H k); rewrite !pk_name_set_in in *; unfold pk_column in *; tauto. }
  destruct (ss_equals (pk_name_set t) (pk_name_set old)) eqn:Epk; cbn [negb] in Lp.
  - (* the same primary key *)
    inversion Lp; subst lp. cbn [concat]. rewrite app_nil_r. split; auto.
    exists (mkSqlTable n xs pk ks). split; auto. split; [cbn; congruence|]. cbn [q_cols q_pk q_keys].
    pose proof (proj1 SK eq_refl) as SK'. split.
    + eapply mid_described; [exact (at_columns _ _ At)|exact X1|]. intros c o I.
      destruct (combine_alterable _ _ _ _ (at_columns _ _ At) I) as [Al [Io Ic]]. f_equal.
      destruct (al_same _ _ Al) as [E1 _]. apply eq_iff_eq_true. rewrite <- (pk_column_flag old o), <- (pk_column_flag t c); auto.
      rewrite E1. apply SK'.
    + split; [intros k; rewrite D3; apply SK'|]. split; [exact (KS tt)|]. now apply table_ok_iff.
  - (* another one *)
    assert (NS : ~ same_key old t) by (intros C; apply SK in C; discriminate).
    destruct (at_key _ _ At) as [C|[k0 Hk0]]; [contradiction|].
    assert (Auto : forall x, In x xs -> q_autoinc x = true -> starts_key (q_name x) (map key_columns_of ks)).
    { intros x X Y. destruct (AX x X) as [c [o [I [Nx Ax]]]]. destruct (combine_alterable _ _ _ _ (at_columns _ _ At) I) as [Al [Io Ic]].
      destruct (al_same _ _ Al) as [E1 _].
      destruct (at_auto _ _ At o c Io Ic (eq_sym E1)) as [Z|[Z _]]; [congruence| |contradiction].
      rewrite Nx. now apply Hks. }
    assert (Ne : pk <> []) by (intros C; apply D3 in Hk0; rewrite C in Hk0; destruct Hk0).
    assert (Kd : ok (mkSqlTable n xs [] ks)).
    { destruct K1 as [W1 W2 W3 W4 W5 W6]. constructor; auto.
      - intros l k [<-|I] J; [destruct J|]. apply (W3 l k); auto. now right.
      - intros x X Y. destruct (Auto x X Y) as [r R]. exists r. now right. }
    assert (Rd : alter_fun (MDropPrimaryKey (t_name t)) (mkSqlTable n xs pk ks) = Some (mkSqlTable n xs [] ks)).
    { cbn [alter_fun q_pk q_cols q_table q_keys]. destruct pk as [|p pk0]; [congruence|].
      unfold checked. now rewrite (proj2 (table_ok_iff _) Kd). }
    inversion Lp as [|? l ? ? S Fn]; subst. inversion Fn; subst. cbn [concat]. rewrite app_nil_r.
    inversion S as [| | |o0 n0 kk Q1 Q2|o0 n0 Q1| | | |ch C]; subst; [| |destruct C].
    + split; [apply Forall_app; split; auto; repeat constructor|].
      destruct Q1 as [_ Q1].
      set (b' := mkSqlTable (t_name old) (map (not_null_in kk) xs) kk ks).
      assert (Nm : map q_name (map (not_null_in kk) xs) = map q_name xs) by (rewrite map_map; apply map_ext; reflexivity).
      assert (Kb : ok b').
      { destruct Kd as [W1 W2 W3 W4 W5 W6]. cbn [q_cols q_keys q_pk] in *. constructor; cbn [b' q_cols q_keys q_pk]; auto.
        - intros C. apply map_eq_nil in C. contradiction.
        - now rewrite Nm.
        - intros l k [<-|I] J; rewrite Nm.
          + rewrite NX. apply Q1 in J. destruct J as [c [Ic [_ <-]]]. now apply in_map.
          + apply (W3 l k); auto. now right.
        - assert (Fl : forall ys, length (filter q_autoinc (map (not_null_in kk) ys)) = length (filter q_autoinc ys)).
          { clear. induction ys as [|y ys IH]; auto. cbn [map filter]. change (q_autoinc (not_null_in kk y)) with (q_autoinc y).
            destruct (q_autoinc y); cbn [length]; auto. }
          now rewrite Fl.
        - intros x X Y. apply in_map_iff in X. destruct X as [x0 [<- X]].
          destruct (Auto x0 X Y) as [r R]. exists r. now right. }
      exists b'. split.
      * rewrite (alter_all_app _ _ _ _ R1). cbn [alter_all]. rewrite Rd. cbn [alter_fun]. unfold add_keys.
        cbn [primary_of flat_map app q_pk others_of filter q_keys q_table q_cols]. rewrite app_nil_r. fold b'. unfold checked.
        now rewrite (proj2 (table_ok_iff _) Kb).
      * split; [exact En|]. cbn [b' q_cols q_pk q_keys]. split.
        { assert (G : forall olds cs ys, Forall2 alterable_column olds cs -> Forall2 mid_column (combine cs olds) ys ->
             (forall c, In c cs -> In c (t_cols t)) -> Forall2 described_column cs (map (not_null_in kk) ys)).
          { clear - Q1 Dt. intros olds cs ys F. revert ys. induction F as [|o c olds cs A F IH]; intros ys G Sc; cbn [combine] in G.
            - inversion G; subst. constructor.
            - inversion G as [|? y ? ys0 G1 G2]; subst. cbn [map]. constructor.
              + apply described_column_iff. destruct G1 as [ty [d [u [V ->]]]]. cbn [fst snd] in *. exists ty, d, u. split; auto.
                unfold not_null_in. cbn. f_equal.
                assert (Es : str_in (c_name c) kk = c_pk c).
                { apply eq_iff_eq_true. rewrite str_in_iff, Q1. apply pk_column_flag; auto. apply Sc. now left. }
                rewrite Es. destruct (c_pk o) eqn:Po, (c_pk c) eqn:Pc; rewrite ?orb_true_r, ?orb_false_r; auto.
                rewrite (al_key _ _ A Po Pc). reflexivity.
              + apply IH; auto. intros z Z. apply Sc. now right. }
          apply (G (t_cols old)); auto. exact (at_columns _ _ At). }
        split; [exact Q1|]. split; [exact (KS tt)|]. now apply table_ok_iff.
    + split; [apply Forall_app; split; auto; repeat constructor|].
      exists (mkSqlTable (t_name old) xs [] ks). split.
      * rewrite (alter_all_app _ _ _ _ R1). cbn [alter_all]. now rewrite Rd.
      * destruct Q1 as [_ Q1]. split; [exact En|]. cbn [q_cols q_pk q_keys]. split.
        { eapply mid_described; [exact (at_columns _ _ At)|exact X1|]. intros c o I.
          destruct (combine_alterable _ _ _ _ (at_columns _ _ At) I) as [Al [Io Ic]].
          assert (Pc : c_pk c = false).
          { destruct (c_pk c) eqn:Pc; auto. apply (pk_column_flag t c Dt Ic) in Pc. apply Q1 in Pc. destruct Pc. }
          destruct (c_pk o) eqn:Po; rewrite Pc; auto. now rewrite (al_key _ _ Al Po Pc). }
        split; [exact Q1|]. split; [exact (KS tt)|]. now apply table_ok_iff.
Qed.
