(** Every attribute listed for a comparison is looked at *)
From Coq Require Import String Ascii List NArith Bool.
From Verif.Model Require Import GoString Util Octopus Common Cli.
From Verif.Spec Require Import OctopusSpec OptionsSpec MattersSpec.
From Verif.Proofs Require Import CliCases EndCases MattersProofs MattersCases ComparedProofs.
Import ListNotations.
Local Open Scope string_scope.

Definition moved (x : option attribute) (old : bool) : table :=
  let at_ (a : attribute) : bool := match x with Some y => is_at y a | None => false end in
  mkTable (pick (at_ TName) "w" (pick old "v" "x"))
    [mkCol "id" "int64" "" 0 0 true true false (pick (at_ CAutoInc) false true) "" "" [] None;
     mkCol (pick (at_ CName) "nick" "name") (pick (at_ CType) "int32" "varchar") (pick (at_ CDesc) "text" "")
       (pick (at_ CSize) 50%N 40%N) 0 (pick (at_ CNotNull) false true) (pick (at_ CPk) true false)
       (pick (at_ CUnique) true false) false (pick (at_ CDefault) "x" "") (pick (at_ COnUpdate) "y" "") [] None;
     mkCol "price" "decimal" "" 10 (pick (at_ CScale) 3%N 2%N) false false false false "" "" [] None;
     mkCol "status" "enum" "" 0 0 false false false false "" "" (pick (at_ CValues) ["A"; "C"] ["A"; "B"]) None;
     mkCol "b_id" "int64" "" 0 0 false false false false "" "" []
       (Some (mkRef (pick (at_ CRef) "c" "b") (pick (at_ CRefColumn) "key" "id") (pick (at_ CRefRel) "1:n" "n:1")))]
    "" "h" "" [].
Definition stays (x : option attribute) : table :=
  let at_ (a : attribute) : bool := match x with Some y => is_at y a | None => false end in
  mkTable "a" [mkCol "id" "int64" "" 0 0 true true false false "" "" [] None] (pick (at_ TDesc) "text" "") "g"
    (pick (at_ TClass) "Act" "") [].
Definition comes (x : option attribute) : table :=
  let at_ (a : attribute) : bool := match x with Some y => is_at y a | None => false end in
  mkTable "b" [mkCol "key" "int64" "" 0 0 true true false false "" "" [] None] ""
    (pick (at_ TGroup) "gg" "g") "" (pick (at_ TIndices) [mkIdx "ix" ["key"]] []).
Definition head_of (x : option attribute) (ts : list table) : schema :=
  let at_ (a : attribute) : bool := match x with Some y => is_at y a | None => false end in
  mkSchema (pick (at_ SAuthor) "you" "me") (pick (at_ SName) "shop" "store") (pick (at_ SVersion) "2" "1") ts.
Definition old_schema (x : option attribute) : schema := head_of x [stays x; moved x true].
Definition new_schema (x : option attribute) : schema := head_of x [stays x; comes x; moved x false].

Definition pair_files (x y : option attribute) : files := ex_files (old_schema x) (new_schema y).
Definition pair_values : values :=
  option_values [("from", "a.json"); ("to", "b.json"); ("output", "o"); ("groups", "g,h"); ("comments", "true")].

Ltac pairwise := unfold same_schema; cbn;
    repeat match goal with
           | |- _ /\ _ => split
           | |- Forall2 _ _ _ => constructor
           | |- same_table _ _ _ => unfold same_table; cbn
           | |- same_column _ _ _ => unfold same_column; cbn
           | |- _ -> _ => intros ?
           | |- _ = _ => first [ reflexivity | congruence ]
           end.
Lemma old_same : forall a, same_schema (fun b => b <> a) (old_schema None) (old_schema (Some a)).
Proof. intros a; destruct a; pairwise. Qed.
Lemma new_same : forall a, same_schema (fun b => b <> a) (new_schema None) (new_schema (Some a)).
Proof. intros a; destruct a; pairwise. Qed.
Lemma old_loads : forall x y, load_file end_world (pair_files x y) "a.json" = Loaded (old_schema x).
Proof.
  intros x y. assert (E : load_file end_world (fun _ => Some (ex_text (old_schema x))) "a.json" = Loaded (old_schema x));
    [ destruct x as [[]|]; vm_compute; reflexivity | ]. exact E.
Qed.
Lemma new_loads : forall x y, load_file end_world (pair_files x y) "b.json" = Loaded (new_schema y).
Proof.
  intros x y. assert (E : load_file end_world (fun _ => Some (ex_text (new_schema y))) "b.json" = Loaded (new_schema y));
    [ destruct y as [[]|]; vm_compute; reflexivity | ]. exact E.
Qed.

Definition differs (c : command) (x y : option attribute) : bool :=
  match run end_world (pair_files None None) c pair_values, run end_world (pair_files x y) c pair_values with
  | (p, Done), (q, Done) => negb (same_files p q)
  | _, _ => false
  end.
Lemma differs_iff : forall c x y, differs c x y = true ->
  snd (run end_world (pair_files None None) c pair_values) = Done /\
  snd (run end_world (pair_files x y) c pair_values) = Done /\
  fst (run end_world (pair_files None None) c pair_values) <> fst (run end_world (pair_files x y) c pair_values).
Proof.
  intros c x y. unfold differs. destruct (run _ (pair_files None None) c _) as [p []]; try discriminate.
  destruct (run _ (pair_files x y) c _) as [q []]; try discriminate. unfold same_files. cbn.
  destruct (list_eq_dec _ p q); [ discriminate | ]. auto.
Qed.
Lemma all_differ : forall c, match compares c with
  | Some (lf, lt) => (forallb (fun a => differs c (Some a) None) lf && forallb (fun a => differs c None (Some a)) lt)%bool = true
  | None => True end.
Proof. intros []; try exact I; vm_compute; reflexivity. Qed.

Lemma each_compared : forall c lf lt, compares c = Some (lf, lt) ->
  (forall a, In a lf -> decides c a true) /\ (forall a, In a lt -> decides c a false).
Proof.
  intros c lf lt E. pose proof (all_differ c) as H. rewrite E in H. apply andb_true_iff in H. destruct H as [HF HT].
  rewrite forallb_forall in HF, HT. split; intros a I.
  - apply HF, differs_iff in I. destruct I as (D1 & D2 & N).
    exists end_world, (pair_files None None), (pair_files (Some a) None), pair_values, "a.json", "b.json", (old_schema None), (old_schema (Some a)),
      (new_schema None), (new_schema None).
    exact (conj end_real (conj (fun _ _ => eq_refl) (conj eq_refl (conj eq_refl (conj (old_loads None None) (conj (new_loads None None)
      (conj (old_loads (Some a) None) (conj (new_loads (Some a) None) (conj (conj (old_same a) eq_refl) (conj D1 (conj D2 N))))))))))).
  - apply HT, differs_iff in I. destruct I as (D1 & D2 & N).
    exists end_world, (pair_files None None), (pair_files None (Some a)), pair_values, "a.json", "b.json", (old_schema None), (old_schema None),
      (new_schema None), (new_schema (Some a)).
    exact (conj end_real (conj (fun _ _ => eq_refl) (conj eq_refl (conj eq_refl (conj (old_loads None None) (conj (new_loads None None)
      (conj (old_loads None (Some a)) (conj (new_loads None (Some a)) (conj (conj eq_refl (new_same a)) (conj D1 (conj D2 N))))))))))).
Qed.
