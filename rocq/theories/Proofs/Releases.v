(** A database brought from version to version is the one made new *)
From Coq Require Import String Ascii List NArith ZArith Bool Sorting.Permutation.
From Verif.Model Require Import GoString Util Octopus Common Mysql DiffCore Diff DiffWriters Cli.
From Verif.Spec Require Import Text OctopusSpec DiffSpec MysqlGrammar MysqlSpec FlywaySpec ServerSpec CliSpec OptionsSpec GroupSpec EndSpec ReleaseSpec.
From Verif.Proofs Require MigrationProofs.
From Verif.Proofs Require Import ListLemmas StringLemmas MysqlFacts MysqlTables FlywayMigration FlywayFacts ServerCases ServerProofs
  MysqlWitnesses CliCases CliOptions EndToEnd EndCases.
Import ListNotations.
Local Open Scope string_scope.

(** ** A schema describes one database *)
Lemma default_one : forall c ds ds', default_means c ds -> default_means c ds' -> ds = ds'.
Proof.
  intros c ds ds' [E|e P] [E'|e' P']; try reflexivity.
  - rewrite E in P'. now apply plain_value_some in P'.
  - rewrite E' in P. now apply plain_value_some in P.
  - now rewrite (plain_value_det _ _ _ _ P P').
Qed.
Lemma update_one : forall c us us', update_means c us -> update_means c us' -> us = us'.
Proof. intros c us us' [E|f E _ _] [E'|f' E' _ _]; try reflexivity; rewrite E in E'; discriminate. Qed.

Lemma means_one : forall c cd cd', column_means c cd -> column_means c cd' -> cd = cd'.
Proof.
  intros c [n ty os] [n' ty' os'] (N & T & ds & us & D & U & O) (N' & T' & ds' & us' & D' & U' & O'). cbn in *.
  rewrite (default_one _ _ _ D' D), (update_one _ _ _ U' U) in O'. congruence.
Qed.
Lemma described_columns_one : forall cs qs qs', Forall2 described_column cs qs -> Forall2 described_column cs qs' -> qs = qs'.
Proof.
  induction cs as [|c cs IH]; intros qs qs' H H'; inversion H as [|? q ? ? D F]; inversion H' as [|? q' ? ? D' F']; subst; [reflexivity|].
  destruct D as (cd & M & ->), D' as (cd' & M' & ->). now rewrite (means_one _ _ _ M M'), (IH _ _ F F').
Qed.
Lemma described_one : forall suffix t b b', described_table suffix t b -> described_table suffix t b' -> same_sql_table b b'.
Proof.
  intros suffix t b b' (N & C & P & K & _) (N' & C' & P' & K' & _).
  split; [congruence|]. split; [exact (described_columns_one _ _ _ C C')|]. split; [congruence|]. intros k. now rewrite P, P'.
Qed.
Lemma forall2_same : forall suffix ts bs bs', Forall2 (described_table suffix) ts bs -> Forall2 (described_table suffix) ts bs' ->
  Forall2 same_sql_table bs bs'.
Proof.
  induction ts as [|t ts IH]; intros bs bs' H H'; inversion H; inversion H'; subst; constructor; eauto using described_one.
Qed.
Lemma described_same : forall suffix ts s s', described suffix ts s -> described suffix ts s' -> same_database s s'.
Proof.
  intros suffix ts s s' (bs & P & F) (bs' & P' & F'). pose proof (forall2_same _ _ _ _ F F') as S.
  apply Permutation_sym in P. destruct (Permutation_Forall2 P S) as (l & Q & G).
  exists l. split; [exact (perm_trans P' Q)|exact G].
Qed.

(** ** Fewer reserved words *)
Lemma ident_fewer : forall reserved w, plain_ident (alter_reserved reserved) w -> plain_ident reserved w.
Proof.
  intros reserved w [A B]. split; [exact A|]. unfold is_ident, alter_reserved in *. destruct w; [discriminate|].
  repeat rewrite ?andb_true_iff, ?negb_true_iff, ?orb_false_iff in *. tauto.
Qed.
Lemma table_fewer : forall reserved suffix t, plain_table (alter_reserved reserved) suffix t -> plain_table reserved suffix t.
Proof.
  intros reserved suffix t [A B [C D] E]. constructor; [now apply ident_fewer|exact B| |exact E]. split; [exact C|].
  revert D. apply Forall_impl. intros c [F1 F2 F3 F4 F5 F6 F7]. constructor; auto using ident_fewer.
Qed.
Lemma proper_fewer : forall reserved suffix ts, proper (alter_reserved reserved) suffix ts -> proper reserved suffix ts.
Proof. intros reserved suffix ts (A & B & C). split; [|split; assumption]. revert A. apply Forall_impl. apply table_fewer. Qed.

(** ** Scripts one after the other *)
Lemma ddl_made : forall w reserved fs v file suffix s, exports v file suffix ->
  load_file w fs file = Loaded s -> proper (alter_reserved reserved) suffix (s_tables s) ->
  exists ddl q, run w fs ExportMysql v = ([(given v "output", ddl)], Done) /\ run_ddl reserved ddl = Some q /\
    described suffix (s_tables s) q.
Proof.
  intros w reserved fs v file suffix s [[I E] O G S] L P. subst file suffix.
  destruct (mysql_server w reserved fs v s (s_tables s)) as (ddl & R & stmts & q & Rd & Rn & D); auto.
  { rewrite G. apply picked_all. }
  { now apply proper_fewer. }
  exists ddl, q. split; [exact R|]. split; [|exact D]. unfold run_ddl. now rewrite Rd.
Qed.

Lemma releases_first : forall w fs reserved suffix f scripts h, releases w fs reserved suffix f scripts h ->
  exists s, load_file w fs f = Loaded s /\ proper (alter_reserved reserved) suffix (s_tables s).
Proof. intros w fs reserved suffix f scripts h [? s L P|? ? ? a ? ? ? ? L ? P]; eauto. Qed.

Lemma releases_run : forall w fs reserved suffix f scripts h, real_world w -> releases w fs reserved suffix f scripts h ->
  forall s, load_file w fs f = Loaded s ->
  exists z, load_file w fs h = Loaded z /\ proper (alter_reserved reserved) suffix (s_tables z) /\
  forall q, described suffix (s_tables s) q ->
  exists q', run_scripts reserved q scripts = Some q' /\ described suffix (s_tables z) q'.
Proof.
  intros w fs reserved suffix f scripts h W H. induction H as [f s L P|f g h a b v text rest La Lb Pa Fo Vf Vt Vg Vs R H IH]; intros s0 L0.
  - exists s. split; [exact L|]. split; [exact P|]. intros q D. exists q. split; [reflexivity|]. congruence.
  - assert (s0 = a) as -> by congruence. destruct (IH b Lb) as (z & Lz & Pz & K). exists z. split; [exact Lz|]. split; [exact Pz|].
    intros q D. destruct (flyway_command w fs v _ W R) as (a' & b' & text' & A & B & E & M).
    rewrite Vf, La in A. rewrite Vt, Lb in B. injection A as <-. injection B as <-. injection E as <-.
    assert (Pb : proper (alter_reserved reserved) suffix (s_tables b)).
    { destruct (releases_first _ _ _ _ _ _ _ H) as (b' & L' & P'). congruence. }
    specialize (M reserved (s_tables b)). rewrite Vg, Vs in M.
    destruct (M (picked_all _) Pb) with (s := q) as (ms & q1 & Rd & Rn & D1); auto.
    + destruct Pa as (Pa & _). revert Pa. apply Forall_impl. intros t T. exact (pt_name _ _ _ T).
    + exact (proj1 (proj2 Pa)).
    + exact (fo_altered _ _ Fo).
    + exact (fo_renamed _ _ Fo).
    + destruct (K q1 D1) as (q' & Rq & Dq). exists q'. split; [|exact Dq]. cbn [run_scripts]. now rewrite Rd, Rn.
Qed.

Lemma releases_same : forall w fs reserved suffix first scripts last v v', real_world w ->
  releases w fs reserved suffix first scripts last -> exports v first suffix -> exports v' last suffix ->
  exists ddl ddl' start migrated new,
    run w fs ExportMysql v = ([(given v "output", ddl)], Done) /\ run_ddl reserved ddl = Some start /\
    run_scripts reserved start scripts = Some migrated /\
    run w fs ExportMysql v' = ([(given v' "output", ddl')], Done) /\ run_ddl reserved ddl' = Some new /\
    same_database migrated new.
Proof.
  intros w fs reserved suffix first scripts last v v' W H V V'.
  destruct (releases_first _ _ _ _ _ _ _ H) as (s & L & P). destruct (releases_run _ _ _ _ _ _ _ W H s L) as (z & Lz & Pz & K).
  destruct (ddl_made w reserved fs v first suffix s V L P) as (ddl & q & R & Q & D).
  destruct (ddl_made w reserved fs v' last suffix z V' Lz Pz) as (ddl' & q' & R' & Q' & D').
  destruct (K q D) as (m & Rm & Dm). exists ddl, ddl', q, m, q'. repeat (split; [assumption|]). exact (described_same _ _ _ _ Dm D').
Qed.

(** ** Three versions *)
Definition rx_last := mkSchema "me" "s" "3" [sx_item true true; sx_named "again"; sx_pair true].
Definition rx_files : files := fun n =>
  alist_find [("1.json", ex_text sx_from); ("2.json", ex_text sx_to); ("3.json", ex_text rx_last)] n.
Definition rx_values (a b : string) := option_values [("from", a); ("to", b); ("output", "o"); ("uniqueNameSuffix", "_uq")].
Definition rx_export (a : string) := option_values [("input", a); ("output", "o"); ("uniqueNameSuffix", "_uq")].
Definition rx_scripts := [text_written (run sample_world rx_files DiffFlyway (rx_values "1.json" "2.json"));
                          text_written (run sample_world rx_files DiffFlyway (rx_values "2.json" "3.json"))].

(** a table that stays as it is *)
Lemma alterable_self : forall t, NoDup (map c_name (t_cols t)) -> alterable t t.
Proof.
  intros t N. constructor.
  - induction (t_cols t) as [|c cs IH]; constructor.
    + constructor; [repeat split|intros X; now elim X|auto|congruence].
    + apply IH. now inversion N.
  - reflexivity.
  - left. intros k. reflexivity.
  - intros o c O C E A. right. split; [intros k; reflexivity|]. left.
    rewrite (MigrationProofs.same_name_same_col (t_cols t) o c N O C E). exact A.
Qed.

Lemma rx_last_plain : Forall (plain_table sx_reserved "_uq") (s_tables rx_last).
Proof.
  cbn [rx_last s_tables]. assert (plain_table sx_reserved "_uq" (sx_named "again")) by sx_table.
  auto using Forall_cons, Forall_nil, sx_plain_item, sx_plain_pair.
Qed.
Lemma rx_proper : proper sx_reserved "_uq" (s_tables (ex_sorted rx_last)).
Proof.
  apply proper_of; [|vm_compute; reflexivity]. apply Forall_forall. intros t T. apply ex_in in T.
  revert t T. apply Forall_forall. exact rx_last_plain.
Qed.
Lemma rx_from_proper : proper sx_reserved "_uq" (s_tables ex_from).
Proof.
  apply proper_of; [|vm_compute; reflexivity]. apply Forall_forall. intros t T. apply ex_from_in in T.
  revert t T. apply Forall_forall. exact sx_from_plain.
Qed.
Lemma rx_to_proper : proper sx_reserved "_uq" (s_tables ex_to).
Proof.
  apply proper_of; [|vm_compute; reflexivity]. apply Forall_forall. intros t T. apply ex_to_in in T.
  revert t T. apply Forall_forall. exact sx_to_plain.
Qed.
Lemma rx_follows : follows (s_tables ex_to) (s_tables (ex_sorted rx_last)).
Proof.
  constructor.
  - intros t old T O E. apply ex_in in T. apply ex_to_in in O. cbn [sx_to rx_last s_tables In] in T, O.
    destruct T as [<-|[<-|[<-|[]]]]; destruct O as [<-|[<-|[<-|[<-|[]]]]]; try discriminate E;
      apply alterable_self; apply distinctb_iff; reflexivity.
  - intros t old T O N E. apply ex_in in T. apply ex_to_in in O. cbn [sx_to rx_last s_tables In] in T, O.
    destruct T as [<-|[<-|[<-|[]]]]; destruct O as [<-|[<-|[<-|[<-|[]]]]]; try discriminate E;
      try (exfalso; apply N; vm_compute; repeat first [left; reflexivity|right]; fail); (split; [|reflexivity]); intros k C; apply uq_names in C; exact C.
Qed.

Lemma releases_case :
  releases sample_world rx_files fx_reserved "_uq" "1.json" rx_scripts "3.json" /\
  exports (rx_export "1.json") "1.json" "_uq" /\ exports (rx_export "3.json") "3.json" "_uq" /\
  option_map (map (fun b => (q_table b, q_pk b, map q_notnull (q_cols b), map q_autoinc (q_cols b))))
    (match run_ddl fx_reserved (text_written (run sample_world rx_files ExportMysql (rx_export "1.json"))) with
     | Some q => run_scripts fx_reserved q rx_scripts
     | None => None
     end) =
  Some [("again", ["id"], [true; false], [true; false]); ("item", ["id"], [true; true; false], [true; false; false]);
        ("pair", ["a"; "b"], [true; true], [false; false])].
Proof.
  split.
  - assert (L1 : load_file sample_world rx_files "1.json" = Loaded ex_from) by (vm_compute; reflexivity).
    assert (L2 : load_file sample_world rx_files "2.json" = Loaded ex_to) by (vm_compute; reflexivity).
    assert (L3 : load_file sample_world rx_files "3.json" = Loaded (ex_sorted rx_last)) by (vm_compute; reflexivity).
    destruct flyway_case as (_ & _ & _ & _ & _ & _ & _ & Al & Rn).
    unfold rx_scripts.
    apply (rl_next _ _ _ _ _ "2.json" _ _ _ (rx_values "1.json" "2.json") _ _ L1 L2 rx_from_proper (Build_follows _ _ Al Rn));
      [reflexivity|reflexivity|reflexivity|reflexivity|vm_compute; reflexivity|].
    apply (rl_next _ _ _ _ _ "3.json" _ _ _ (rx_values "2.json" "3.json") _ _ L2 L3 rx_to_proper rx_follows);
      [reflexivity|reflexivity|reflexivity|reflexivity|vm_compute; reflexivity|].
    exact (rl_last _ _ _ _ _ _ L3 rx_proper).
  - split; [repeat split; discriminate|]. split; [repeat split; discriminate|]. vm_compute. reflexivity.
Qed.

(** ** Two versions the second of which has a column more *)
Definition rx_added : files := fun n =>
  alist_find [("1.json", ex_text (sx_schema [sx_shorter])); ("2.json", ex_text (sx_schema [sx_longer]))] n.

Lemma releases_differ : exists script start migrated new,
  run sample_world rx_added DiffFlyway (rx_values "1.json" "2.json") = ([("o", script)], Done) /\
  run_ddl fx_reserved (text_written (run sample_world rx_added ExportMysql (rx_export "1.json"))) = Some start /\
  run_scripts fx_reserved start [script] = Some migrated /\
  run_ddl fx_reserved (text_written (run sample_world rx_added ExportMysql (rx_export "2.json"))) = Some new /\
  ~ same_database migrated new.
Proof.
  do 4 eexists. split; [vm_compute; reflexivity|]. split; [vm_compute; reflexivity|]. split; [vm_compute; reflexivity|].
  split; [vm_compute; reflexivity|]. intros (l & P & F). apply Permutation_length_1_inv in P. subst l.
  inversion F as [|? ? ? ? (_ & C & _) _]; subst. discriminate C.
Qed.
