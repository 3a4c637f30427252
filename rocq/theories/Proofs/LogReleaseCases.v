(** Versions that change logs bring a database through *)
From Coq Require Import String Ascii List NArith Bool Sorting.Permutation.
From Verif.Model Require Import GoString Util Octopus Common DiffCore Liquibase Cli.
From Verif.Spec Require Import OctopusSpec LiquibaseSpec CliSpec OptionsSpec EndSpec Database LogReleaseSpec.
From Verif.Proofs Require Import ListLemmas OctopusProofs LiquibaseWitnesses CliCases CliOptions EndCases.
Import ListNotations.
Local Open Scope string_scope.

Definition kx_first := lx_s
  [lx_t "u" [lx_id; lx_col "mail" true; lx_col "name" true; lx_col "old" false];
   lx_t "gone" [lx_id]; lx_t "before" [lx_id; lx_col "x" false]].
Definition kx_second := lx_s
  [lx_t "u" [lx_id; lx_col "mail" true; lx_col "name" true; lx_col "renamed" false; lx_num "n" false false];
   lx_t "after" [lx_id; lx_col "x" false];
   lx_t "fresh" [lx_num "a" false true; lx_num "b" false true; lx_col "p" true; lx_col "q" true]].
Definition kx_third := lx_s
  [lx_t "u" [lx_id; lx_col "mail" true; lx_col "code" true; lx_col "renamed" false; lx_num "n" true false];
   lx_t "later" [lx_id; lx_col "x" false];
   lx_t "fresh" [lx_num "a" false true; lx_num "b" false false; lx_col "p" true; lx_col "q" true; lx_col "r" true]].

Definition kx_files : files := fun n =>
  alist_find [("1.json", ex_text kx_first); ("2.json", ex_text kx_second); ("3.json", ex_text kx_third)] n.
Definition kx_values (a b : string) := option_values [("from", a); ("to", b); ("output", "o"); ("comments", "true")].
Definition kx_make (a : string) := option_values [("input", a); ("output", "o"); ("comments", "true")].
Definition kx_opt := mkLqOption None "" "" true.
Definition kx_made (s : schema) : list lq_cset :=
  match lq_generate (w_float_ok sample_world) kx_opt (ex_sorted s) with Some l => l | None => [] end.
Definition kx_log (a b : schema) : list lq_cset :=
  match lq_diff (w_float_ok sample_world) (w_ord_tables sample_world) (w_ord_columns sample_world) kx_opt (ex_sorted a) (ex_sorted b) with
  | Some l => l | None => [] end.

Lemma not_lone_none : forall t, forallb (fun c => negb (c_uq c)) (t_cols t) = true -> ~ lone_unique t.
Proof.
  intros t H (k & (c & I & U & _) & _). rewrite forallb_forall in H. specialize (H c I). rewrite U in H. discriminate.
Qed.
Lemma not_lone_two : forall t a b, In a (t_cols t) -> In b (t_cols t) -> c_uq a = true -> c_uq b = true -> c_name a <> c_name b -> ~ lone_unique t.
Proof.
  intros t a b A B Ua Ub N (k & _ & H). apply N. rewrite (H (c_name a)) by (exists a; auto). symmetry. apply H. exists b. auto.
Qed.

Ltac not_lone :=
  first [apply not_lone_none; reflexivity
        |match goal with |- ~ lone_unique ?t =>
           let l := eval cbv in (filter c_uq (t_cols t)) in
           match l with ?a :: ?b :: _ => apply (not_lone_two t a b); cbn [t_cols lx_t In]; [tauto|tauto|reflexivity|reflexivity|discriminate] end
         end].

Ltac kx_proper :=
  split; [apply ServerProofs.distinctb_iff; vm_compute; reflexivity|];
  intros t T; apply ex_in in T; cbn [lx_s s_tables In kx_first kx_second kx_third] in T; in_cases; (split; [wf|not_lone]).

Lemma kx_first_proper : log_proper (s_tables (ex_sorted kx_first)).
Proof. kx_proper. Qed.
Lemma kx_second_proper : log_proper (s_tables (ex_sorted kx_second)).
Proof. kx_proper. Qed.
Lemma kx_third_proper : log_proper (s_tables (ex_sorted kx_third)).
Proof. kx_proper. Qed.

Ltac kx_columns := intros c o Hc Ho E1 E2; cbn [lx_t t_cols In] in Hc, Ho; in_cases; try discriminate; reflexivity.
Ltac kx_renamed :=
  intros t old T O N E _; apply ex_in in T; apply ex_in in O; cbn [lx_s s_tables In kx_first kx_second kx_third] in T, O;
  in_cases; reflexivity.

Lemma kx_follows : forall fk sv, log_follows fk sv true (s_tables (ex_sorted kx_first)) (s_tables (ex_sorted kx_second)).
Proof.
  intros fk sv. constructor; [|kx_renamed].
  intros t old T O E. apply ex_in in T. apply ex_in in O. cbn [lx_s s_tables In kx_first kx_second kx_third] in T, O. in_cases; try discriminate E.
  constructor; [right|kx_columns|kx_columns|kx_columns|right; right; exists "id"|right; left; exists "id"].
  - exists "mail", (lx_col "mail" true). cbn. auto.
  - split; [exists lx_id; cbn; auto|cbn; auto].
  - cbn. auto.
Qed.
Lemma kx_follows' : forall fk sv, log_follows fk sv true (s_tables (ex_sorted kx_second)) (s_tables (ex_sorted kx_third)).
Proof.
  intros fk sv. constructor; [|kx_renamed].
  intros t old T O E. apply ex_in in T. apply ex_in in O. cbn [lx_s s_tables In kx_first kx_second kx_third] in T, O. in_cases; try discriminate E.
  - constructor; [right|kx_columns|kx_columns|kx_columns|right; right; exists "id"|right; left; exists "id"].
    + exists "mail", (lx_col "mail" true). cbn. auto.
    + split; [exists lx_id; cbn; auto|cbn; auto].
    + cbn. auto.
  - constructor; [right|kx_columns|kx_columns|kx_columns|right; right; exists "a"|right; left; exists "a"].
    + exists "p", (lx_col "p" true). cbn. auto.
    + split; [exists (lx_num "a" false true); cbn; auto|cbn; auto].
    + cbn. auto.
Qed.

Lemma log_releases_case : forall sv,
  log_releases sample_world kx_files sv true "1.json" (map show_log [kx_log kx_first kx_second; kx_log kx_second kx_third]) "3.json" /\
  makes sample_world kx_files (kx_make "1.json") "1.json" true (show_log (kx_made kx_first)) /\
  makes sample_world kx_files (kx_make "3.json") "3.json" true (show_log (kx_made kx_third)) /\
  option_map (map (fun b => (b_name b, map d_name (b_cols b), b_pk b, b_uqs b)))
    (match run_log lx_sv (kx_made kx_first) [] with
     | Some q => run_logs lx_sv [kx_log kx_first kx_second; kx_log kx_second kx_third] q
     | None => None
     end) =
  Some [("later", ["id"; "x"], ["id"], []);
        ("u", ["id"; "mail"; "code"; "renamed"; "n"], ["id"], [(Some "u", ["code"; "mail"])]);
        ("fresh", ["a"; "b"; "p"; "q"; "r"], ["a"], [(Some "fresh", ["p"; "q"; "r"])])].
Proof.
  intros sv. split; [|split; [|split]].
  - assert (L1 : load_file sample_world kx_files "1.json" = Loaded (ex_sorted kx_first)) by (vm_compute; reflexivity).
    assert (L2 : load_file sample_world kx_files "2.json" = Loaded (ex_sorted kx_second)) by (vm_compute; reflexivity).
    assert (L3 : load_file sample_world kx_files "3.json" = Loaded (ex_sorted kx_third)) by (vm_compute; reflexivity).
    assert (C : forall a b, true = true <-> switched_on (kx_values a b) "comments").
    { intros a b. split; [|reflexivity]. intros _. vm_compute. tauto. }
    cbn [map].
    apply (lr_next _ _ _ _ _ "2.json" _ _ _ (kx_values "1.json" "2.json") _ _ L1 L2 kx_first_proper (kx_follows _ _));
      [reflexivity|reflexivity|reflexivity|apply C|vm_compute; reflexivity|].
    apply (lr_next _ _ _ _ _ "3.json" _ _ _ (kx_values "2.json" "3.json") _ _ L2 L3 kx_second_proper (kx_follows' _ _));
      [reflexivity|reflexivity|reflexivity|apply C|vm_compute; reflexivity|].
    exact (lr_last _ _ _ _ _ _ L3 kx_third_proper).
  - constructor; [reflexivity|reflexivity|reflexivity| |vm_compute; reflexivity]. split; [intros _; vm_compute; tauto|reflexivity].
  - constructor; [reflexivity|reflexivity|reflexivity| |vm_compute; reflexivity]. split; [intros _; vm_compute; tauto|reflexivity].
  - vm_compute. reflexivity.
Qed.

(** ** Exactly one unique column *)
Definition kx_lone : files := fun n => alist_find [("1.json", ex_text lx_from3); ("2.json", ex_text lx_to3)] n.
Lemma log_releases_differ : forall sv, exists log diff log' start new,
  run sample_world kx_lone GenerateLiquibase (kx_make "1.json") = ([("o", show_log log)], Done) /\
  run sample_world kx_lone DiffLiquibase (kx_values "1.json" "2.json") = ([("o", show_log diff)], Done) /\
  run sample_world kx_lone GenerateLiquibase (kx_make "2.json") = ([("o", show_log log')], Done) /\
  log_follows (w_float_ok sample_world) sv true (s_tables (ex_sorted lx_from3)) (s_tables (ex_sorted lx_to3)) /\
  run_log sv log [] = Some start /\ run_log sv log' [] = Some new /\
  forall migrated, run_log sv diff start = Some migrated -> ~ same_db true migrated new.
Proof.
  intros sv. exists (kx_made lx_from3), (kx_log lx_from3 lx_to3), (kx_made lx_to3).
  assert (F : log_follows (w_float_ok sample_world) sv true (s_tables (ex_sorted lx_from3)) (s_tables (ex_sorted lx_to3))).
  { constructor.
    - intros t old T O E. apply ex_in in T. apply ex_in in O. cbn [lx_s s_tables In lx_from3 lx_to3] in T, O. in_cases.
      constructor; [right|kx_columns|kx_columns|kx_columns|right; right; exists "id"|right; left; exists "id"].
      + exists "mail", (lx_col "mail" true). cbn. auto.
      + split; [exists lx_id; cbn; auto|cbn; auto].
      + cbn. auto.
    - intros t old T O N E _. apply ex_in in T. apply ex_in in O. cbn [lx_s s_tables In lx_from3 lx_to3] in T, O. in_cases. reflexivity. }
  destruct sv as [[] e r]; do 2 eexists;
    (split; [vm_compute; reflexivity|]); (split; [vm_compute; reflexivity|]); (split; [vm_compute; reflexivity|]); (split; [exact F|]);
    (split; [vm_compute; reflexivity|]); (split; [vm_compute; reflexivity|]); intros m M; vm_compute in M.
  - injection M as <-. intros (l & P & G). apply Permutation_length_1_inv in P. subst l.
    inversion G as [|? ? ? ? (_ & _ & _ & _ & U) _]; subst.
    inversion U as [|? ? ? ? [_ B1] U']; subst. inversion U' as [|? ? ? ? [_ B2] _]; subst.
    specialize (B1 "mail"). specialize (B2 "mail"). cbn in B1, B2. intuition discriminate.
  - discriminate M.
Qed.
