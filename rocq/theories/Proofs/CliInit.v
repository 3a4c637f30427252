(** The file written by init *)
From Coq Require Import String Ascii List NArith ZArith Bool Sorting.Permutation Sorting.Sorted.
From Verif.Model Require Import GoString Util Octopus Common Json JsonText Cli.
From Verif.Proofs Require Import StringLemmas OctopusProofs CliLoad CliCases.
From Verif.Spec Require Import Text OctopusSpec CommonSpec CliSpec InitSpec.
Import ListNotations.
Local Open Scope string_scope.

Definition init_user : table := nth 0 (s_tables init_schema) (mkTable "" [] "" "" "" []).
Definition init_group : table := nth 1 (s_tables init_schema) (mkTable "" [] "" "" "" []).

(** two tables in the wrong order *)
Lemma sort_two : forall sortf a b, sorts_tables sortf -> table_less b a = true ->
  sortf [a; b] = [b; a] /\ sortf [b; a] = [b; a].
Proof.
  intros sortf a b Hs L.
  assert (K : forall l, Permutation l [a; b] -> StronglySorted table_le l -> l = [b; a]).
  { intros l P S. destruct (Permutation_length_2_inv (Permutation_sym P)) as [->| ->]; [|reflexivity].
    inversion S as [|x y S' F E1]; subst. inversion F as [|x y Le F' E2]; subst. exfalso.
    apply table_less_le in Le. congruence. }
  destruct (Hs [a; b]) as [P1 S1]. destruct (Hs [b; a]) as [P2 S2]. split; apply K; auto using sorted_strong.
  transitivity [b; a]; [exact P2|constructor].
Qed.

(** what is loaded from the file *)
Definition init_loaded : schema := fst (normalize isort_tables init_schema).
Definition init_text : string := saved_text (to_text isort_tables init_schema).
(** what is loaded from the documented file, before sorting *)
Definition doc_decoded : schema :=
  match from_text documented_init with Some s => s | None => init_schema end.
Definition doc_loaded : schema := fst (normalize isort_tables doc_decoded).

Lemma normalize_sorted : forall sortf s ts, sortf (s_tables s) = ts -> isort_tables (s_tables s) = ts ->
  normalize sortf s = normalize isort_tables s.
Proof. intros sortf s ts A B. unfold normalize. now rewrite A, B. Qed.

Lemma init_saved : forall sortf, sorts_tables sortf -> to_text sortf init_schema = Some init_text.
Proof.
  intros sortf Hs. unfold to_text, to_json.
  rewrite (normalize_sorted sortf init_schema [init_group; init_user]); [vm_compute; reflexivity| |vm_compute; reflexivity].
  exact (proj1 (sort_two sortf init_user init_group Hs eq_refl)).
Qed.

Lemma init_loads : forall w fs name, sorts_tables (w_sort w) -> octopus_name name -> fs name = Some init_text ->
  load_file w fs name = Loaded init_loaded.
Proof.
  intros w fs name Hs O F.
  rewrite (load_encoded w fs name init_text init_loaded (accepts_octopus _ O) F); [|vm_compute; reflexivity|apply fits_checked; reflexivity].
  f_equal. unfold load_schema_decoded.
  rewrite (normalize_sorted (w_sort w) init_loaded (s_tables init_loaded)); [vm_compute; reflexivity| |vm_compute; reflexivity].
  exact (proj2 (sort_two (w_sort w) (nth 1 (s_tables init_loaded) init_user) (nth 0 (s_tables init_loaded) init_user) Hs eq_refl)).
Qed.
Lemma doc_loads : forall w fs name, sorts_tables (w_sort w) -> octopus_name name -> fs name = Some documented_init ->
  load_file w fs name = Loaded doc_loaded.
Proof.
  intros w fs name Hs O F.
  rewrite (load_encoded w fs name documented_init doc_decoded (accepts_octopus _ O) F); [|vm_compute; reflexivity|apply fits_checked; reflexivity].
  f_equal. unfold load_schema_decoded.
  rewrite (normalize_sorted (w_sort w) doc_decoded (s_tables doc_decoded)); [vm_compute; reflexivity| |vm_compute; reflexivity].
  exact (proj2 (sort_two (w_sort w) (nth 1 (s_tables doc_decoded) init_user) (nth 0 (s_tables doc_decoded) init_user) Hs eq_refl)).
Qed.

Lemma init_runs : forall w fs v, sorts_tables (w_sort w) ->
  exists text, run w fs Init v = ([(given v "output", text)], Done) /\ forall fs' name, octopus_name name -> fs' name = Some text ->
  exists s s', load_file w fs' name = Loaded s /\ valid_schema s /\ load_file w (fun _ => Some documented_init) name = Loaded s' /\ without_relationships s = s'.
Proof.
  intros w fs v Hs. exists init_text. split.
  - unfold run, action, save_schema. rewrite (init_saved _ Hs). reflexivity.
  - intros fs' name O F. exists init_loaded, doc_loaded. split; [now apply init_loads|]. split.
    + pose proof (init_saved _ Hs) as T.
      destruct (saved_loads_any w fs' name init_schema init_text Hs) as (s1 & s2 & s3 & _ & _ & L & _ & _ & _ & _ & V);
        [apply fits_checked; reflexivity|exact O|exact T|exact F|].
      rewrite (init_loads w fs' name Hs O F) in L. injection L as E. rewrite E. exact V.
    + split; [now apply doc_loads|vm_compute; reflexivity].
Qed.
Lemma init_differs : forall w fs v path text, sorts_tables (w_sort w) -> run w fs Init v = ([(path, text)], Done) ->
  text <> documented_init /\ exists s s', load_file w (fun _ => Some text) "db.json" = Loaded s /\
    load_file w (fun _ => Some documented_init) "db.json" = Loaded s' /\ s <> s'.
Proof.
  intros w fs v path text Hs R. unfold run, action, save_schema in R. rewrite (init_saved _ Hs) in R.
  change (([(given v "output", init_text)], Done) = ([(path, text)], Done)) in R. assert (E : text = init_text) by congruence. subst text.
  split; [vm_compute; discriminate|]. exists init_loaded, doc_loaded.
  split; [apply init_loads; [exact Hs|exact (json_name "db")|reflexivity]|].
  split; [apply doc_loads; [exact Hs|exact (json_name "db")|reflexivity]|]. vm_compute. discriminate.
Qed.
Lemma init_no_default : forall w fs v, sorts_tables (w_sort w) -> v "output" = None ->
  exists text, run w fs Init v = ([("", text)], Done).
Proof.
  intros w fs v Hs N. exists init_text. unfold run, action, save_schema. rewrite (init_saved _ Hs).
  change (([(given v "output", init_text)], Done) = ([("", init_text)], Done)). unfold given. now rewrite N.
Qed.
