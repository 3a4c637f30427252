(** A second export and import of MySQL DDL changes nothing *)
From Coq Require Import String Ascii List NArith ZArith Bool Lia.
From Verif.Model Require Import GoString Util Octopus Common Mysql.
From Verif.Spec Require Import Text MysqlGrammar MysqlSpec MysqlImportSpec TripSpec.
From Verif.Proofs Require Import ListLemmas StringLemmas UtilProofs MysqlLex MysqlTypes MysqlRead MysqlFacts MysqlTables.
Import ListNotations.
Local Open Scope string_scope.

(** ** Types *)
Definition char_kind (ty : string) : bool := String.eqb ty "char" || String.eqb ty "varchar".

Lemma pos_u16_small : forall z, (pos_u16 z < 65536)%N.
Proof.
  intros z. unfold pos_u16. destruct (Z.ltb 0 z); [|reflexivity]. unfold u16. apply N.mod_lt. discriminate.
Qed.

Lemma type_tripped : forall c ft ty n s vs, In (c_type c) col_types -> (c_size c < 65536)%N -> (c_scale c < 65536)%N ->
  Forall plain_text (c_values c) ->
  sql_type c = Some ft -> import_column_type ft = (ty, n, s) -> import_column_values ty ft = vs ->
  forall c', c_type c' = ty -> c_size c' = n -> c_scale c' = s -> c_values c' = vs ->
  In ty col_types /\ Forall plain_text vs /\ sql_type c' <> None /\ type_survives c' /\
  (n < 65536)%N /\ (s < 65536)%N /\ char_kind ty = char_kind (c_type c).
Proof.
  intros [name ty0 desc n0 s0 nn pk uq ai df ou vs0 rf] ft ty n s vs HT Hn Hs HV Q E V [name' ty' desc' n' s' nn' pk' uq' ai' df' ou' vs' rf'].
  cbn [c_type c_size c_scale c_values] in *. intros -> -> -> ->.
  unfold col_types in HT. cbn [In] in HT.
  repeat (destruct HT as [<-|HT]; [|]).
  all: try (destruct HT; fail).
  all: destruct vs0 as [|v0 vs0].
  all: unfold sql_type in Q; cbn -[pos_u16 Z.of_N import_column_type] in Q.
  all: repeat match type of Q with
    | context [N.eqb ?x 0] => destruct (N.eqb_spec x 0)
    | context [N.leb ?x ?k] => destruct (N.leb_spec x k)
    end; try discriminate Q.
  all: cbn [negb andb] in Q; try discriminate Q.
  all: injection Q as <-.
  all: cbn -[pos_u16 Z.of_N contains to_lower] in E.
  all: repeat match type of E with context [contains ?a ?b] => let r := eval vm_compute in (contains a b) in change (contains a b) with r in E end; cbv iota in E.
  all: rewrite ?Z_eqb_one, ?pos_u16_N in E by assumption.
  all: repeat match type of E with
    | context [N.eqb ?x 1] => destruct (N.eqb_spec x 1)
    end.
  all: injection E as <- <- <-.
  all: cbn -[pos_u16 Z.of_N contains to_lower] in V; subst.
  all: change (pos_u16 (-1)) with 0%N; try (change (pos_u16 1) with 1%N).
  all: rewrite ?pos_u16_N by assumption.
  all: split; [unfold col_types; cbn [In]; tauto|].
  all: split; [try assumption; try constructor|].
  all: unfold sql_type, type_survives; cbn -[pos_u16 Z.of_N contains to_lower].
  all: repeat match goal with
    | |- context [N.eqb ?x 0] => destruct (N.eqb_spec x 0)
    | |- context [N.leb ?x ?k] => destruct (N.leb_spec x k)
    end.
  all: try (exfalso; lia).
  all: cbn [negb andb].
  all: (split; [discriminate|]).
  all: (split; [repeat split; auto; try lia; try discriminate|]).
  all: repeat split; auto; try lia.
Qed.

Lemma type_kept : forall c ft ty n s, In (c_type c) col_types -> (c_size c < 65536)%N ->
  sql_type c = Some ft -> import_column_type ft = (ty, n, s) ->
  (ty = "enum" \/ ty = "set" -> ty = c_type c /\ import_column_values ty ft = c_values c) /\
  (In (c_type c) ["int8"; "int16"; "int24"; "int32"; "int64"] -> ~ (c_type c = "int8" /\ c_size c = 1%N) -> ty = c_type c) /\
  (import_column_values ty ft = [] \/ import_column_values ty ft = c_values c).
Proof.
  intros [name ty0 desc n0 s0 nn pk uq ai df ou vs0 rf] ft ty n s HT Hn Q E.
  cbn [c_type c_size c_scale c_values] in *.
  unfold col_types in HT. cbn [In] in HT.
  repeat (destruct HT as [<-|HT]; [|]).
  all: try (destruct HT; fail).
  all: destruct vs0 as [|v0 vs0].
  all: unfold sql_type in Q; cbn -[pos_u16 Z.of_N import_column_type] in Q.
  all: repeat match type of Q with
    | context [N.eqb ?x 0] => destruct (N.eqb_spec x 0)
    | context [N.leb ?x ?k] => destruct (N.leb_spec x k)
    end; try discriminate Q.
  all: cbn [negb andb] in Q; try discriminate Q.
  all: injection Q as <-.
  all: cbn -[pos_u16 Z.of_N contains to_lower] in E.
  all: repeat match type of E with context [contains ?a ?b] => let r := eval vm_compute in (contains a b) in change (contains a b) with r in E end; cbv iota in E.
  all: rewrite ?Z_eqb_one, ?pos_u16_N in E by assumption.
  all: repeat match type of E with
    | context [N.eqb ?x 1] => destruct (N.eqb_spec x 1)
    end.
  all: injection E as <- <- <-.
  all: (split; [intros [X|X]; try discriminate X; split; reflexivity|split; [|now (left + right)]]).
  all: intros I X; first [reflexivity|exfalso; apply X; split; [reflexivity|assumption]|exfalso; cbn [In] in I; decompose [or] I; try discriminate; contradiction].
Qed.

(** ** Values *)
Definition kept_default (ds : list col_option) : string := match ds with [ODefault e] => stored e | _ => "" end.
Definition kept_update (us : list col_option) : string := match us with [OOnUpdate e] => stored e | _ => "" end.

Lemma column_imported : forall pk uq c cd ds us ty n s, default_means c ds -> update_means c us ->
  cd_name cd = c_name c -> import_column_type (cd_type cd) = (ty, n, s) ->
  cd_options cd = ((if c_notnull c then [ONotNull] else []) ++ (if c_autoinc c then [OAutoIncrement] else []) ++
                   ds ++ us ++ (if String.eqb (c_desc c) "" then [] else [OComment (c_desc c)]))%list ->
  import_column pk uq cd =
  mkCol (c_name c) ty (c_desc c) n s (c_notnull c || c_autoinc c) (ss_contains pk (c_name c)) (ss_contains uq (c_name c))
        (c_autoinc c) (kept_default ds) (kept_update us) (import_column_values ty (cd_type cd)) None.
Proof.
  intros pk uq c cd ds us ty n s D U N T O. unfold import_column. rewrite T, O, N. clear - D U.
  assert (D' : ds = [] \/ exists e, ds = [ODefault e] /\ e <> EOther).
  { destruct D as [|e P]; [now left|right]. exists e. split; [reflexivity|]. now destruct P. }
  assert (U' : us = [] \/ us = [OOnUpdate (EFunc "CURRENT_TIMESTAMP")]) by (destruct U; auto).
  destruct D' as [->|(e & -> & Ne)], U' as [->| ->]; try (destruct e as [[v|]|f|]; [| | |congruence]);
    destruct (c_notnull c), (c_autoinc c), (String.eqb_spec (c_desc c) "") as [Ec|Ec]; rewrite ?Ec; reflexivity.
Qed.

Lemma itoa_digits : forall n, digits (itoa n).
Proof.
  intros n. pose proof (is_digits_itoa n) as H. unfold is_digits in H. destruct (itoa n) as [|c r] eqn:E; [discriminate|].
  split; [discriminate|]. apply all_chars_forallb. now apply andb_true_iff in H.
Qed.

Lemma kept_stable : forall c ds ty, default_means c ds -> char_kind ty = char_kind (c_type c) ->
  kept_default ds = "" \/ kept_default ds = "fn::CURRENT_TIMESTAMP" \/ plain_value ty (kept_default ds) (EValue (Some (kept_default ds))).
Proof.
  intros c ds ty D K.
  assert (S : forall t, char_kind t = true <-> t = "char" \/ t = "varchar").
  { intros t. unfold char_kind. rewrite orb_true_iff, !String.eqb_eq. reflexivity. }
  destruct D as [|e P]; [now left|]. cbn [kept_default].
  assert (NC : c_type c <> "char" -> c_type c <> "varchar" -> ty <> "char" /\ ty <> "varchar").
  { intros A B. assert (X : char_kind (c_type c) = false).
    { destruct (char_kind (c_type c)) eqn:X; [|reflexivity]. apply S in X. tauto. }
    rewrite X in K. split; intros ->; discriminate K. }
  destruct P as [f F1 F2|v T N Pt Fn|v n A B Dg E|a b A B Da Db|v A B L]; cbn [stored].
  - auto.
  - right. right. apply pv_text; auto. apply S. rewrite K. now apply S.
  - destruct (NC A B) as [A' B']. right. right. apply pv_int; auto using itoa_digits. apply digits_to_N_itoa.
  - destruct (NC A B) as [A' B']. right. right. exact (pv_dec ty a b A' B' Da Db).
  - now left.
Qed.

(** ** Columns *)
Lemma column_tripped : forall reserved pk uq c cd, plain_column reserved c -> sized c -> column_means c cd ->
  plain_column reserved (import_column pk uq cd) /\ survives (import_column pk uq cd) /\
  c_name (import_column pk uq cd) = c_name c /\ without_ref (import_column pk uq cd) = import_column pk uq cd.
Proof.
  intros reserved pk uq c cd P [Hn Hs] (N & T & ds & us & D & U & O).
  destruct (import_column_type (cd_type cd)) as [[ty n] s] eqn:E.
  rewrite (column_imported pk uq c cd ds us ty n s D U N E O).
  set (c' := mkCol _ _ _ _ _ _ _ _ _ _ _ _ _).
  destruct (type_tripped c (cd_type cd) ty n s _ (pc_type _ _ P) Hn Hs (pc_values _ _ P) T E eq_refl c') as (A1 & A2 & A3 & A4 & A5 & A6 & A7);
    try reflexivity.
  assert (SD : stable_default c') by exact (kept_stable c ds ty D A7).
  assert (SU : stable_update c') by (destruct U; [now left|now right]).
  split; [|split; [|split; reflexivity]].
  - constructor; try assumption; [exact (pc_name _ _ P)| | |exact (pc_desc _ _ P)].
    + destruct SD as [S|[S|S]]; [exists []; now constructor| |].
      * exists [ODefault (EFunc "CURRENT_TIMESTAMP")]. apply dm_some. rewrite S. apply ct_plain.
      * eexists. apply dm_some. exact S.
    + destruct SU as [S|S]; [exists []; now constructor|]. eexists. apply (um_some _ "CURRENT_TIMESTAMP"); [exact S| |];
        pose proof (ct_plain "date") as Q; inversion Q; assumption.
  - constructor; try assumption; [split; assumption|]. cbn [c' c_autoinc c_notnull]. intros ->. apply orb_true_r.
Qed.

(** ** Tables *)
Lemma table_tripped : forall reserved suffix suffix' t st excludes, plain_table reserved suffix t -> ~ char_in "`" suffix' -> sized_table t ->
  table_means suffix t st ->
  Forall (fun t' => plain_table reserved suffix' t' /\ NoDup (map c_name (t_cols t')) /\ Forall survives (t_cols t') /\ table_core t' = t')
    (import_stmt excludes st).
Proof.
  intros reserved suffix suffix' t st excludes [Pn _ [Pc Pcs] Pi] Sx [ND SZ] (cds & M & ->). cbn [import_stmt].
  destruct (ss_contains excludes (t_name t)); [constructor|].
  set (pkn := map c_name (filter c_pk (t_cols t))). set (uqn := map c_name (filter c_uq (t_cols t))).
  set (ixk := map (fun i => KIndex (ix_name i) (ix_cols i)) (t_indices t)).
  destruct (fold_left import_constraint (key_if pkn KPrimaryKey ++ key_if uqn (KUniq (t_name t ++ suffix)) ++ ixk)%list
              (ss_new [], ss_new [], [])) as [[pk uq] ixs] eqn:E.
  apply constraints_spec in E. destruct E as [_ [_ C]].
  assert (Eix : ixs = t_indices t).
  { rewrite C. unfold indices_of. rewrite !flat_map_app.
    replace (flat_map _ (key_if pkn KPrimaryKey)) with (@nil index) by (destruct pkn; reflexivity).
    replace (flat_map _ (key_if uqn (KUniq (t_name t ++ suffix)))) with (@nil index) by (destruct uqn; reflexivity).
    unfold ixk. cbn [app]. clear. induction (t_indices t) as [|[n cols] l IH]; [reflexivity|]. cbn. now rewrite IH. }
  rewrite Eix. clear C Eix. constructor; [|constructor].
  assert (X : Forall (plain_column reserved) (map (import_column pk uq) cds) /\ Forall survives (map (import_column pk uq) cds) /\
              map c_name (map (import_column pk uq) cds) = map c_name (t_cols t) /\
              map without_ref (map (import_column pk uq) cds) = map (import_column pk uq) cds).
  { clear - M Pcs SZ. induction M as [|c cd cs cds Hc M IH]; [repeat split; constructor|].
    inversion Pcs; subst. inversion SZ; subst. destruct IH as (I1 & I2 & I3 & I4); auto.
    destruct (column_tripped reserved pk uq c cd) as (B1 & B2 & B3 & B4); auto.
    cbn [map]. rewrite B3, B4, I3, I4. repeat split; try constructor; assumption. }
  destruct X as (X1 & X2 & X3 & X4). split; [|split; [|split]].
  - constructor; [exact Pn|exact Sx| |exact Pi]. cbn [t_cols]. split; [|exact X1]. intros Z. rewrite Z in X3. apply Pc.
    symmetry in X3. now apply map_eq_nil in X3.
  - cbn [t_cols]. rewrite X3. exact ND.
  - exact X2.
  - unfold table_core. cbn [t_name t_cols t_indices]. now rewrite X4.
Qed.

Lemma second_trip : forall reserved f suffix suffix' s excludes author version,
  Forall (plain_table reserved suffix) (filter (passes f) (s_tables s)) -> ~ char_in "`" suffix' ->
  Forall sized_table (filter (passes f) (s_tables s)) ->
  exists stmts s1 stmts', read_sql reserved (my_export f suffix s) = Some stmts /\
    import_sql excludes author version stmts = Ok s1 /\
    read_sql reserved (my_export None suffix' s1) = Some stmts' /\ import_sql [] author version stmts' = Ok s1.
Proof.
  intros reserved f suffix suffix' s excludes author version HP Sx HS.
  destruct (export_reads reserved f suffix s HP) as [stmts [R M]]. exists stmts.
  assert (OK : import_sql excludes author version stmts = Ok (import_stmts excludes author version stmts))
    by (unfold import_sql; now rewrite (means_no_panic _ _ _ _ M)).
  set (s1 := import_stmts excludes author version stmts) in *. exists s1.
  assert (K : Forall (fun t' => plain_table reserved suffix' t' /\ NoDup (map c_name (t_cols t')) /\ Forall survives (t_cols t') /\ table_core t' = t')
                (s_tables s1)).
  { unfold s1, import_stmts. cbn [s_tables]. clear - M HP HS Sx. induction M as [|t st ts sts Ht M IH]; [constructor|].
    inversion HP; subst. inversion HS; subst. cbn [flat_map]. apply Forall_app. split; [|auto].
    eapply table_tripped; eauto. }
  assert (F : filter (passes None) (s_tables s1) = s_tables s1).
  { clear. induction (s_tables s1) as [|t l IH]; [reflexivity|]. cbn [filter]. cbn [passes]. now rewrite IH. }
  destruct (export_import reserved None suffix' s1 [] author version) as (stmts' & R' & I').
  - rewrite F. revert K. apply Forall_impl. tauto.
  - rewrite F. revert K. apply Forall_impl. tauto.
  - exists stmts'. split; [exact R|]. split; [exact OK|]. split; [exact R'|]. rewrite I', F. unfold s1 at 2, import_stmts. do 2 f_equal.
    change (flat_map (import_stmt (ss_new excludes)) stmts) with (s_tables s1).
    assert (G : filter (fun t => negb (str_in (t_name t) [])) (s_tables s1) = s_tables s1).
    { clear. induction (s_tables s1) as [|t l IH]; [reflexivity|]. cbn [filter str_in negb]. now rewrite IH. }
    rewrite G. clear - K. induction (s_tables s1) as [|t l IH]; [reflexivity|]. inversion K as [|? ? (_ & _ & _ & E) ?]; subst.
    cbn [map]. rewrite E. f_equal. auto.
Qed.
