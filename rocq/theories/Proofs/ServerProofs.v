(** One table of a MySQL server (Spec/ServerSpec.v) *)
From Coq Require Import String Ascii List NArith ZArith Bool Lia Sorting.Permutation.
From Verif.Model Require Import GoString Util Octopus DiffCore Diff Mysql DiffWriters.
From Verif.Spec Require Import Text Order DiffSpec MysqlGrammar MysqlSpec FlywaySpec ServerSpec.
From Verif.Proofs Require Import ListLemmas StringLemmas OctopusProofs UtilProofs DiffCoreProofs DiffProofs DiffFacts.
Import ListNotations.
Local Open Scope string_scope.
Local Open Scope list_scope.

Lemma distinctb_iff : forall l, distinctb l = true <-> NoDup l.
Proof.
  induction l as [|x l IH]; cbn [distinctb]; [split; auto; constructor|].
  rewrite andb_true_iff, IH, negb_true_iff, str_in_false. split.
  - intros [A B]. now constructor.
  - intros D. inversion D; subst. auto.
Qed.

Lemma leads_iff : forall k l, leads k l = true <-> exists r, l = k :: r.
Proof.
  intros k [|x l]; simpl.
  - split; [discriminate|intros [r E]; discriminate].
  - rewrite String.eqb_eq. split; [intros ->; eauto|intros [r E]; congruence].
Qed.

(** the keys of a table *)
Definition all_keys (b : sql_table) : list (list string) := q_pk b :: map key_columns_of (q_keys b).

Record ok (b : sql_table) : Prop := {
  ok_cols : q_cols b <> [];
  ok_names : NoDup (map q_name (q_cols b));
  ok_keys : forall l k, In l (all_keys b) -> In k l -> In k (map q_name (q_cols b));
  ok_key_names : NoDup (flat_map key_name_of (q_keys b));
  ok_one : length (filter q_autoinc (q_cols b)) <= 1;
  ok_auto : forall q, In q (q_cols b) -> q_autoinc q = true -> starts_key (q_name q) (all_keys b)
}.

Lemma table_ok_iff : forall b, table_ok b = true <-> ok b.
Proof.
  intros b. unfold table_ok. fold (all_keys b). rewrite !andb_true_iff, !distinctb_iff, !forallb_forall, negb_true_iff.
  rewrite PeanoNat.Nat.eqb_neq, PeanoNat.Nat.leb_le, map_length. split.
  - intros [[[[[A B] C] D] E] F]. constructor; auto.
    + intros H. now rewrite H in A.
    + intros l k L K. apply str_in_iff, C, in_concat. eauto.
    + intros q Q R. specialize (F q Q). rewrite R in F. cbn [negb orb] in F. apply existsb_exists in F. destruct F as [l [L M]].
      apply leads_iff in M. destruct M as [r ->]. now exists r.
  - intros [A B C D E F]. repeat split; auto.
    + destruct (q_cols b); [congruence|cbn; lia].
    + intros k K. apply in_concat in K. destruct K as [l [L K]]. apply str_in_iff. eauto.
    + intros q Q. destruct (q_autoinc q) eqn:R; auto. cbn [negb orb]. apply existsb_exists.
      destruct (F q Q R) as [r Hr]. exists (q_name q :: r). split; auto. apply leads_iff. eauto.
Qed.

(** ** Columns *)

(** the values of a column: type, default and on update *)
Definition col_vals (c : column) (ty : field_type) (d u : option my_expr) : Prop :=
  sql_type c = Some ty /\
  (exists ds, default_means c ds /\ ((ds = [] /\ d = None) \/ exists e, ds = [ODefault e] /\ d = Some e)) /\
  (exists us, update_means c us /\ ((us = [] /\ u = None) \/ exists e, us = [OOnUpdate e] /\ u = Some e)).

Lemma default_forms : forall c ds, default_means c ds -> ds = [] \/ exists e, ds = [ODefault e].
Proof. intros c ds []; eauto. Qed.
Lemma update_forms : forall c us, update_means c us -> us = [] \/ exists e, us = [OOnUpdate e].
Proof. intros c us []; eauto. Qed.

Lemma column_of_means : forall c cd, column_means c cd -> exists d u, col_vals c (cd_type cd) d u /\
  column_of cd = mkSqlColumn (c_name c) (cd_type cd) (c_notnull c) (c_autoinc c) d u (c_desc c) /\ keys_of cd = [] /\
  cd_name cd = c_name c.
Proof.
  intros c [n ty os] [E1 [E2 [ds [us [D [U E3]]]]]]. cbn in E1, E2, E3. subst n os. cbn [cd_name cd_type].
  unfold column_of, keys_of. cbn [cd_name cd_type cd_options].
  assert (P : (exists d, (ds = [] /\ d = None) \/ exists e, ds = [ODefault e] /\ d = Some e) /\
              (exists u, (us = [] /\ u = None) \/ exists e, us = [OOnUpdate e] /\ u = Some e)).
  { split.
    - destruct (default_forms _ _ D) as [->|[e ->]]; [exists None; auto|exists (Some e); eauto].
    - destruct (update_forms _ _ U) as [->|[e ->]]; [exists None; auto|exists (Some e); eauto]. }
  destruct P as [[d Hd] [u Hu]]. exists d, u. split.
  { split; auto. split; eauto. }
  destruct (c_notnull c), (c_autoinc c), (String.eqb (c_desc c) "") eqn:Ec;
    try (apply String.eqb_eq in Ec; rewrite Ec);
    destruct Hd as [[-> ->]|[e [-> ->]]], Hu as [[-> ->]|[e' [-> ->]]]; cbn; auto.
Qed.

Lemma means_of_vals : forall c ty d u, col_vals c ty d u -> exists cd, column_means c cd /\ cd_type cd = ty /\
  column_of cd = mkSqlColumn (c_name c) ty (c_notnull c) (c_autoinc c) d u (c_desc c).
Proof.
  intros c ty d u [T [[ds [D Hd]] [us [U Hu]]]].
  exists (mkColDef (c_name c) ty ((if c_notnull c then [ONotNull] else []) ++ (if c_autoinc c then [OAutoIncrement] else []) ++
                     ds ++ us ++ (if String.eqb (c_desc c) "" then [] else [OComment (c_desc c)]))).
  split; [|split; [reflexivity|]].
  - split; [reflexivity|]. split; [exact T|]. eauto.
  - unfold column_of. cbn [cd_name cd_type cd_options].
    destruct (c_notnull c), (c_autoinc c), (String.eqb (c_desc c) "") eqn:Ec;
    try (apply String.eqb_eq in Ec; rewrite Ec);
    destruct Hd as [[-> ->]|[e [-> ->]]], Hu as [[-> ->]|[e' [-> ->]]]; cbn; auto.
Qed.

(** [q] is column [c], with NOT NULL as given *)
Definition is_column (c : column) (nn : bool) (q : sql_column) : Prop :=
  exists ty d u, col_vals c ty d u /\ q = mkSqlColumn (c_name c) ty nn (c_autoinc c) d u (c_desc c).

Lemma described_column_iff : forall c q, described_column c q <-> is_column c (c_notnull c || c_pk c) q.
Proof.
  intros c q. split.
  - intros [cd [M ->]]. destruct (column_of_means _ _ M) as [d [u [V [E _]]]]. exists (cd_type cd), d, u. split; auto.
    now rewrite E.
  - intros [ty [d [u [V ->]]]]. destruct (means_of_vals _ _ _ _ V) as [cd [M [<- E]]]. exists cd. split; auto.
    now rewrite E.
Qed.

Lemma is_column_name : forall c nn q, is_column c nn q -> q_name q = c_name c /\ q_autoinc q = c_autoinc c /\ q_notnull q = nn.
Proof. intros c nn q [ty [d [u [_ ->]]]]. auto. Qed.

Lemma col_vals_same : forall o c ty d u, sql_type c = sql_type o -> c_type c = c_type o -> c_default c = c_default o ->
  c_onupdate c = c_onupdate o -> col_vals o ty d u -> col_vals c ty d u.
Proof.
  intros o c ty d u T1 T2 D U [A [[ds [B1 B2]] [us [C1 C2]]]]. split; [congruence|]. split.
  - exists ds. split; auto. destruct B1 as [B1|e B1]; [constructor; congruence|]. constructor. now rewrite T2, D.
  - exists us. split; auto. destruct C1 as [C1|f C1]; [constructor; congruence|]. econstructor; eauto. congruence.
Qed.

(** ** Statements about one table *)
Definition alter_fun (m : mig_stmt) (b : sql_table) : option sql_table :=
  match m with
  | MModify t cd =>
      if str_in (cd_name cd) (map q_name (q_cols b)) then
        add_keys (keys_of cd)
          (mkSqlTable (q_table b)
             (map (fun q => if String.eqb (q_name q) (cd_name cd) then column_of cd else q) (q_cols b))
             (q_pk b) (q_keys b))
      else None
  | MDropPrimaryKey t =>
      match q_pk b with [] => None | _ => checked (mkSqlTable (q_table b) (q_cols b) [] (q_keys b)) end
  | MAddPrimaryKey t ks => add_keys [KPrimaryKey ks] b
  | _ => None
  end.
Definition about (n : string) (m : mig_stmt) : Prop :=
  match m with MModify t _ | MDropPrimaryKey t | MAddPrimaryKey t _ => t = n | _ => False end.
Fixpoint alter_all (ms : list mig_stmt) (b : sql_table) : option sql_table :=
  match ms with [] => Some b | m :: ms' => match alter_fun m b with Some b' => alter_all ms' b' | None => None end end.

Lemma alter_all_app : forall ms ms' b b', alter_all ms b = Some b' -> alter_all (ms ++ ms') b = alter_all ms' b'.
Proof.
  induction ms as [|m ms IH]; cbn [alter_all app]; intros ms' b b' H; [congruence|].
  destruct (alter_fun m b); [eauto|discriminate].
Qed.

(** ** Adding no keys *)
Definition pk_not_null (b : sql_table) : Prop := forall q, In q (q_cols b) -> In (q_name q) (q_pk b) -> q_notnull q = true.

Lemma not_null_in_id : forall ks q, (In (q_name q) ks -> q_notnull q = true) -> not_null_in ks q = q.
Proof.
  intros ks q H. unfold not_null_in. destruct q as [n ty nn ai d u cm]. cbn in *. f_equal.
  destruct (str_in n ks) eqn:E; [|apply orb_false_r]. apply str_in_iff in E. rewrite H; auto.
Qed.

Lemma map_not_null_id : forall ks qs, (forall q, In q qs -> In (q_name q) ks -> q_notnull q = true) -> map (not_null_in ks) qs = qs.
Proof.
  intros ks qs H. rewrite <- (map_id qs) at 2. apply map_ext_in. intros q Q. apply not_null_in_id. auto.
Qed.

Lemma replace_mid : forall n x pre q post, NoDup (map q_name (pre ++ q :: post)) -> q_name q = n ->
  map (fun y => if String.eqb (q_name y) n then x else y) (pre ++ q :: post) = pre ++ x :: post.
Proof.
  intros n x pre q post D E. rewrite map_app in *. cbn [map] in *. rewrite E, String.eqb_refl.
  assert (P : forall y, In y (pre ++ post) -> q_name y <> n).
  { intros y Y C. apply NoDup_remove_2 in D. rewrite E in D. apply D. rewrite <- C, <- map_app. now apply in_map. }
  f_equal; [|f_equal].
  - rewrite <- (map_id pre) at 2. apply map_ext_in. intros y Y.
    destruct (String.eqb (q_name y) n) eqn:F; auto. apply String.eqb_eq in F. exfalso. apply (P y); auto. apply in_or_app. auto.
  - rewrite <- (map_id post) at 2. apply map_ext_in. intros y Y.
    destruct (String.eqb (q_name y) n) eqn:F; auto. apply String.eqb_eq in F. exfalso. apply (P y); auto. apply in_or_app. auto.
Qed.

(** replacing a column keeps a table acceptable *)
Lemma ok_replace : forall n pre q post pk ks x, ok (mkSqlTable n (pre ++ q :: post) pk ks) -> q_name x = q_name q ->
  (q_autoinc x = true -> (forall y, In y (pre ++ post) -> q_autoinc y = false) /\ starts_key (q_name x) (pk :: map key_columns_of ks)) ->
  ok (mkSqlTable n (pre ++ x :: post) pk ks).
Proof.
  intros n pre q post pk ks x [A B C D E F] Ex Ha. cbn [q_cols q_pk q_keys] in *.
  assert (N : map q_name (pre ++ x :: post) = map q_name (pre ++ q :: post)) by (rewrite !map_app; cbn; now rewrite Ex).
  constructor; cbn [q_cols q_pk q_keys]; auto.
  - destruct pre; discriminate.
  - now rewrite N.
  - rewrite N. exact C.
  - rewrite filter_app in *. cbn [filter] in *. rewrite app_length in *.
    destruct (q_autoinc x) eqn:Ax.
    + destruct (Ha eq_refl) as [H _].
      rewrite (filter_none _ pre), (filter_none _ post); [cbn; lia| |]; intros y Y; apply H, in_or_app; auto.
    + destruct (q_autoinc q); cbn [length] in *; lia.
  - intros y Y Ay. unfold all_keys in *. cbn [q_pk q_keys] in *. apply in_app_or in Y. destruct Y as [Y|[<-|Y]].
    + apply F; auto. apply in_or_app. auto.
    + now apply Ha.
    + apply F; auto. apply in_or_app. right. now right.
Qed.

(** ** MODIFY *)
Lemma modify_column : forall n pre q post pk ks t cd x,
  ok (mkSqlTable n (pre ++ q :: post) pk ks) -> pk_not_null (mkSqlTable n (pre ++ q :: post) pk ks) ->
  cd_name cd = q_name q -> keys_of cd = [] -> x = not_null_in pk (column_of cd) -> q_name x = q_name q ->
  (q_autoinc x = true -> (forall y, In y (pre ++ post) -> q_autoinc y = false) /\ starts_key (q_name x) (pk :: map key_columns_of ks)) ->
  alter_fun (MModify t cd) (mkSqlTable n (pre ++ q :: post) pk ks) = Some (mkSqlTable n (pre ++ x :: post) pk ks) /\
  ok (mkSqlTable n (pre ++ x :: post) pk ks) /\ pk_not_null (mkSqlTable n (pre ++ x :: post) pk ks).
Proof.
  intros n pre q post pk ks t cd x K PN En Ek Ex Nx Ha.
  pose proof (ok_replace _ _ _ _ _ _ x K Nx Ha) as K'.
  cbn [alter_fun q_cols q_table q_pk q_keys].
  assert (I : str_in (cd_name cd) (map q_name (pre ++ q :: post)) = true).
  { apply str_in_iff. rewrite En. apply in_map. apply in_or_app. right. now left. }
  rewrite I, Ek. unfold add_keys. cbn [primary_of flat_map others_of filter q_table q_cols q_pk q_keys].
  rewrite app_nil_r. rewrite En. rewrite replace_mid; [|exact (ok_names _ K)|reflexivity].
  rewrite map_app. cbn [map]. rewrite <- Ex.
  unfold pk_not_null in PN. cbn [q_cols q_pk] in PN.
  rewrite (map_not_null_id pk pre), (map_not_null_id pk post).
  2:{ intros y Y. apply PN, in_or_app. right. now right. }
  2:{ intros y Y. apply PN, in_or_app. auto. }
  unfold checked. rewrite (proj2 (table_ok_iff _) K'). split; auto. split; auto.
  intros y Y. cbn [q_cols q_pk] in *. apply in_app_or in Y. destruct Y as [Y|[<-|Y]].
  - apply PN, in_or_app. auto.
  - intros I'. rewrite Ex. cbn [not_null_in q_notnull]. rewrite Ex in I'. cbn [not_null_in q_name] in I'.
    apply str_in_iff in I'. rewrite I'. apply orb_true_r.
  - apply PN, in_or_app. right. now right.
Qed.

(** ** The changes of one column *)
Lemma pk_column_flag : forall t c, NoDup (map c_name (t_cols t)) -> In c (t_cols t) ->
  (pk_column t (c_name c) <-> c_pk c = true).
Proof.
  intros t c D I. split.
  - intros [c' [I' [P N]]]. assert (c' = c) by (eapply (nodup_name_eq c_name); eauto). congruence.
  - intros P. exists c. auto.
Qed.

Lemma silent_stmts : forall suffix chs ls, Forall silent chs -> Forall2 (sql_of suffix) chs ls -> concat ls = [].
Proof.
  intros suffix chs ls S F. induction F as [|ch l chs ls H F IH]; auto. inversion S; subst. cbn [concat].
  rewrite IH; auto. rewrite app_nil_r. destruct H; cbn in *; try tauto; reflexivity.
Qed.

Section Column.
Variable suffix : string.
Variables old t : table.
Variables o c : column.
Variable pk : list string.
Variable ks : list my_constraint.
Hypothesis Do : NoDup (map c_name (t_cols old)).
Hypothesis Io : In o (t_cols old).
Hypothesis Ic : In c (t_cols t).
Hypothesis Al : alterable_column o c.
Hypothesis Hpk : forall k, In k pk <-> pk_column old k.

Lemma in_pk : str_in (c_name c) pk = c_pk o.
Proof.
  destruct (al_same _ _ Al) as [N _]. rewrite N.
  destruct (c_pk o) eqn:P.
  - apply str_in_iff, Hpk, pk_column_flag; auto.
  - apply str_in_false. rewrite Hpk, pk_column_flag by auto. congruence.
Qed.

Lemma column_step : forall comments n pre q post ls,
  ok (mkSqlTable n (pre ++ q :: post) pk ks) -> pk_not_null (mkSqlTable n (pre ++ q :: post) pk ks) ->
  is_column o (c_notnull o || c_pk o) q ->
  (c_autoinc c = true -> (forall y, In y (pre ++ post) -> q_autoinc y = false)) ->
  (c_autoinc c = true -> c_autoinc o = false -> starts_key (c_name c) (pk :: map key_columns_of ks)) ->
  Forall2 (sql_of suffix) (column_changes comments t (c, o)) ls ->
  Forall (about (t_name t)) (concat ls) /\
  exists x, alter_all (concat ls) (mkSqlTable n (pre ++ q :: post) pk ks) = Some (mkSqlTable n (pre ++ x :: post) pk ks) /\
    ok (mkSqlTable n (pre ++ x :: post) pk ks) /\ pk_not_null (mkSqlTable n (pre ++ x :: post) pk ks) /\
    is_column c (c_notnull c || c_pk o) x.
Proof.
  intros comments n pre q post ls K PN Q Au Ky F.
  destruct (al_same _ _ Al) as [E1 [E2 [E3 [E4 [E5 [E6 E7]]]]]].
  unfold column_changes in F. rewrite E1, E4, E6, !String.eqb_refl in F. cbn [negb andb app] in F.
  rewrite andb_false_r in F. cbn [app] in F. rewrite app_nil_r in F.
  apply Forall2_app_inv_l in F. destruct F as [l1 [l2 [F1 [F2 ->]]]].
  assert (S1 : concat l1 = []).
  { eapply silent_stmts; [|exact F1]. match goal with |- Forall _ (if ?x then _ else _) => destruct x end; repeat constructor. }
  rewrite concat_app, S1. cbn [app]. clear S1 F1 l1.
  apply Forall2_app_inv_l in F2. destruct F2 as [l3 [l4 [F3 [F4 ->]]]]. rewrite concat_app.
  destruct (is_column_name _ _ _ Q) as [Qn [Qa Qnn]].
  assert (Nq : q_name q = c_name c) by congruence.
  (* what a MODIFY of the whole column does, whatever is there *)
  assert (Full : forall q0 ll, ok (mkSqlTable n (pre ++ q0 :: post) pk ks) -> pk_not_null (mkSqlTable n (pre ++ q0 :: post) pk ks) ->
     q_name q0 = c_name c -> c_autoinc c = true -> c_autoinc o = false ->
     Forall2 (sql_of suffix) [SetAutoIncrement t c] ll ->
     Forall (about (t_name t)) (concat ll) /\
     exists x, alter_all (concat ll) (mkSqlTable n (pre ++ q0 :: post) pk ks) = Some (mkSqlTable n (pre ++ x :: post) pk ks) /\
       ok (mkSqlTable n (pre ++ x :: post) pk ks) /\ pk_not_null (mkSqlTable n (pre ++ x :: post) pk ks) /\
       is_column c (c_notnull c || c_pk o) x).
  { intros q0 ll K0 P0 N0 A0 A1 Fl. inversion Fl as [|? l ? ? S Fn]; subst. inversion Fn; subst. cbn [concat]. rewrite app_nil_r.
    inversion S as [| | | | | |t0 c0 cd A M|t0 c0 ft A M|ch C]; subst; [|congruence|destruct C].
    destruct (column_of_means _ _ M) as [d [u [V [Ec [Ek En]]]]]. split; [constructor; [reflexivity|constructor]|].
    assert (Ex : not_null_in pk (column_of cd) =
      mkSqlColumn (c_name c) (cd_type cd) (c_notnull c || c_pk o) (c_autoinc c) d u (c_desc c)).
    { rewrite Ec. unfold not_null_in. cbn. now rewrite in_pk. }
    exists (not_null_in pk (column_of cd)).
    destruct (modify_column n pre q0 post pk ks (t_name t) cd _ K0 P0 (eq_trans En (eq_sym N0)) Ek eq_refl) as [R [R1 R2]].
    - rewrite Ex. cbn. congruence.
    - rewrite Ex. cbn. intros _. auto.
    - cbn [alter_all]. rewrite R. split; auto. split; auto. split; auto. exists (cd_type cd), d, u. auto. }
  destruct (negb (Bool.eqb (c_notnull c) (c_notnull o))) eqn:Enn.
  - (* NOT NULL changes *)
    apply negb_eqb_bool in Enn.
    inversion F3 as [|? l ? ? S Fn]; subst. inversion Fn; subst. cbn [concat]. rewrite app_nil_r.
    inversion S as [| | | | |t0 c0 ft T| | |ch C]; subst; [|destruct C].
    set (cd := mkColDef (c_name c) ft (if c_notnull c then [ONotNull] else [])).
    assert (Ec : column_of cd = mkSqlColumn (c_name c) ft (c_notnull c) false None None "").
    { unfold cd, column_of. cbn [cd_name cd_type cd_options]. destruct (c_notnull c); reflexivity. }
    assert (Ek : keys_of cd = []) by (unfold cd, keys_of; cbn [cd_options]; destruct (c_notnull c); reflexivity).
    set (x := not_null_in pk (column_of cd)).
    assert (Ex : x = mkSqlColumn (c_name c) ft (c_notnull c || c_pk o) false None None "").
    { unfold x. rewrite Ec. unfold not_null_in. cbn. now rewrite in_pk. }
    destruct (modify_column n pre q post pk ks (t_name t) cd x K PN (eq_sym Nq) Ek eq_refl) as [R [R1 R2]].
    { rewrite Ex. cbn. congruence. }
    { rewrite Ex. cbn. discriminate. }
    destruct (al_null _ _ Al Enn) as [[A1 A2]|[A1 [A2 [A3 A4]]]].
    + rewrite A1, A2 in F4. cbn [negb Bool.eqb] in F4.
      destruct (Full x l4 R1 R2) as [G1 [y [G2 [G3 [G4 G5]]]]]; auto.
      { rewrite Ex. reflexivity. }
      split; [apply Forall_app; split; auto; constructor; [reflexivity|constructor]|].
      exists y. split; auto. cbn [app alter_all]. rewrite R. exact G2.
    + assert (A5 : c_autoinc o = false).
      { destruct (c_autoinc o) eqn:Y; auto. rewrite (al_auto _ _ Al Y) in A1. discriminate. }
      rewrite A1, A5 in F4. cbn [negb Bool.eqb] in F4. inversion F4; subst. cbn [concat].
      rewrite app_nil_r. split; [constructor; [reflexivity|constructor]|].
      exists x. cbn [alter_all]. rewrite R. split; auto. split; auto. split; auto.
      exists ft, None, None. rewrite A1, A4. split; auto. split; auto. split.
      * exists []. split; auto. now constructor.
      * exists []. split; auto. now constructor.
  - (* NOT NULL stays *)
    apply negb_false_iff, eqb_prop in Enn. inversion F3; subst. cbn [concat app].
    destruct (negb (Bool.eqb (c_autoinc c) (c_autoinc o))) eqn:Eai.
    + apply negb_eqb_bool in Eai.
      assert (A : c_autoinc c = true /\ c_autoinc o = false).
      { destruct (c_autoinc o) eqn:Y; [rewrite (al_auto _ _ Al Y) in Eai; congruence|]. destruct (c_autoinc c); auto; congruence. }
      destruct A as [A1 A2]. apply Full; auto.
    + apply negb_false_iff, eqb_prop in Eai. inversion F4; subst. cbn [concat alter_all]. split; [constructor|].
      exists q. split; auto. split; auto. split; auto. destruct Q as [ty [d [u [V ->]]]]. exists ty, d, u. split.
      * eapply col_vals_same; [| | | |exact V]; congruence.
      * rewrite E1, Enn, Eai, E6. reflexivity.
Qed.
End Column.

(** ** The columns of one table *)
Section Table.
Variable suffix : string.
Variables old t : table.
Variable pk : list string.
Variable ks : list my_constraint.
Hypothesis Do : NoDup (map c_name (t_cols old)).
Hypothesis Ac : acceptable suffix t.
Hypothesis At : alterable old t.
Hypothesis Hpk : forall k, In k pk <-> pk_column old k.
Hypothesis Hks : forall k, starts_key k (other_keys t) -> starts_key k (map key_columns_of ks).

Definition old_column (o : column) (q : sql_column) : Prop := is_column o (c_notnull o || c_pk o) q.
Definition mid_column (p : column * column) (q : sql_column) : Prop :=
  is_column (fst p) (c_notnull (fst p) || c_pk (snd p)) q.

Lemma old_auto : forall olds cs qs y, Forall2 alterable_column olds cs -> Forall2 old_column olds qs -> In y qs ->
  q_autoinc y = true -> exists c, In c cs /\ c_name c = q_name y /\ c_autoinc c = true.
Proof.
  intros olds cs qs y F. revert qs. induction F as [|o c olds cs A F IH]; intros qs G I Y.
  - inversion G; subst. destruct I.
  - inversion G as [|? q ? qs0 G1 G2]; subst. destruct I as [<-|I].
    + destruct (is_column_name _ _ _ G1) as [N [Z _]]. exists c. split; [now left|]. split.
      * destruct (al_same _ _ A) as [E _]. congruence.
      * apply (al_auto _ _ A). congruence.
    + destruct (IH qs0 G2 I Y) as [c' [H1 H2]]. exists c'. split; [now right|exact H2].
Qed.

Lemma columns_step : forall comments n olds cs, Forall2 alterable_column olds cs ->
  (forall o, In o olds -> In o (t_cols old)) -> (forall c, In c cs -> In c (t_cols t)) ->
  forall pre qs ls, ok (mkSqlTable n (pre ++ qs) pk ks) -> pk_not_null (mkSqlTable n (pre ++ qs) pk ks) ->
  Forall2 old_column olds qs ->
  (forall y, In y pre -> q_autoinc y = true -> exists c, In c (t_cols t) /\ c_name c = q_name y /\ c_autoinc c = true) ->
  Forall2 (sql_of suffix) (flat_map (column_changes comments t) (combine cs olds)) ls ->
  Forall (about (t_name t)) (concat ls) /\
  exists xs, alter_all (concat ls) (mkSqlTable n (pre ++ qs) pk ks) = Some (mkSqlTable n (pre ++ xs) pk ks) /\
    ok (mkSqlTable n (pre ++ xs) pk ks) /\ pk_not_null (mkSqlTable n (pre ++ xs) pk ks) /\
    Forall2 mid_column (combine cs olds) xs.
Proof.
  intros comments n olds cs F. induction F as [|o c olds cs A F IH]; intros So Sc pre qs ls K PN G Hp L.
  - inversion G; subst. inversion L; subst. cbn [concat alter_all]. split; [constructor|]. exists []. split; [reflexivity|]. split; [exact K|]. split; [exact PN|]. constructor.
  - inversion G as [|? q ? post G1 G2]; subst. cbn [combine flat_map] in L.
    apply Forall2_app_inv_l in L. destruct L as [l1 [l2 [L1 [L2 ->]]]]. rewrite concat_app.
    destruct (is_column_name _ _ _ G1) as [Nq [Aq _]].
    assert (Io : In o (t_cols old)) by (apply So; now left). assert (Ic : In c (t_cols t)) by (apply Sc; now left).
    destruct (al_same _ _ A) as [E1 _].
    assert (Au : c_autoinc c = true -> forall y, In y (pre ++ post) -> q_autoinc y = false).
    { intros Hc y Y. destruct (q_autoinc y) eqn:Z; auto. exfalso.
      assert (P : exists c', In c' (t_cols t) /\ c_name c' = q_name y /\ c_autoinc c' = true).
      { apply in_app_or in Y. destruct Y as [Y|Y]; [auto|].
        destruct (old_auto _ _ _ _ F G2 Y Z) as [c' [H1 H2]]. exists c'. split; auto. apply Sc. now right. }
      destruct P as [c' [P1 [P2 P3]]]. assert (c' = c) by (eapply (ac_autoinc _ _ Ac); eauto). subst c'.
      pose proof (ok_names _ K) as D. cbn [q_cols] in D. rewrite map_app in D. cbn [map] in D.
      apply NoDup_remove_2 in D. apply D. rewrite <- map_app. replace (q_name q) with (q_name y) by congruence. now apply in_map. }
    assert (Ky : c_autoinc c = true -> c_autoinc o = false -> starts_key (c_name c) (pk :: map key_columns_of ks)).
    { intros Hc Ho. destruct (at_auto _ _ At o c Io Ic (eq_sym E1) Hc) as [X|[X [Y|Y]]]; [|congruence|].
      - destruct (Hks _ X) as [r R]. exists r. now right.
      - assert (P : In (c_name c) pk) by (apply Hpk, X, Y; reflexivity).
        destruct pk as [|x r] eqn:Ep; [destruct P|]. exists r. left. f_equal. apply Y, X, Hpk. now left. }
    destruct (column_step suffix old t o c pk ks Do Io A Hpk comments n pre q post l1 K PN G1 Au Ky L1)
      as [S1 [x [R1 [K1 [PN1 X1]]]]].
    destruct (IH (fun z Z => So z (or_intror Z)) (fun z Z => Sc z (or_intror Z)) (pre ++ [x]) post l2) as [S2 [xs [R2 [K2 [PN2 X2]]]]]; auto.
    + rewrite <- app_assoc. exact K1.
    + rewrite <- app_assoc. exact PN1.
    + intros y Y Z. apply in_app_or in Y. destruct Y as [Y|[<-|[]]]; [auto|].
      destruct (is_column_name _ _ _ X1) as [Nx [Ax _]]. exists c. repeat split; auto. congruence.
    + split; [apply Forall_app; auto|]. exists (x :: xs).
      rewrite (alter_all_app _ _ _ _ R1). replace (pre ++ x :: post) with ((pre ++ [x]) ++ post) by now rewrite <- app_assoc.
      replace (pre ++ x :: xs) with ((pre ++ [x]) ++ xs) by now rewrite <- app_assoc.
      split; [exact R2|]. split; [exact K2|]. split; [exact PN2|]. cbn [combine]. constructor; auto.
Qed.
End Table.
