(** Every attribute listed is looked at: two schemas that differ in nothing else *)
From Coq Require Import String Ascii List NArith Bool.
From Verif.Model Require Import GoString Util Octopus Common Cli.
From Verif.Spec Require Import OctopusSpec OptionsSpec MattersSpec.
From Verif.Proofs Require Import CliCases EndCases MattersProofs.
Import ListNotations.
Local Open Scope string_scope.

Definition pick {X} (b : bool) (x y : X) : X := if b then x else y.
Definition is_at (a b : attribute) : bool := Nat.eqb (code a) (code b).

(** a schema with one attribute of one place changed; none if no attribute is named *)
Definition changed (x : option attribute) : schema :=
  let at_ (a : attribute) : bool := match x with Some y => is_at y a | None => false end in
  mkSchema (pick (at_ SAuthor) "you" "me") (pick (at_ SName) "shop" "store") (pick (at_ SVersion) "2" "1")
    [mkTable (pick (at_ TName) "act" "a")
       [mkCol "id" "int64" "" 0 0 true true false (pick (at_ CAutoInc) false true) "" "" [] None;
        mkCol (pick (at_ CName) "nick" "name") (pick (at_ CType) "int32" "varchar") (pick (at_ CDesc) "text" "")
          (pick (at_ CSize) 50%N 40%N) 0 (pick (at_ CNotNull) false true) (pick (at_ CPk) true false)
          (pick (at_ CUnique) true false) false (pick (at_ CDefault) "x" "") (pick (at_ COnUpdate) "y" "") [] None;
        mkCol "price" "decimal" "" 10 (pick (at_ CScale) 3%N 2%N) false false false false "" "" [] None;
        mkCol "status" "enum" "" 0 0 false false false false "" "" (pick (at_ CValues) ["A"; "C"] ["A"; "B"]) None;
        mkCol "b_id" "int64" "" 0 0 false false false false "" "" []
          (Some (mkRef (pick (at_ CRef) "c" "b") (pick (at_ CRefColumn) "key" "id") (pick (at_ CRefRel) "1:n" "n:1")))]
       (pick (at_ TDesc) "text" "") (pick (at_ TGroup) "f" "g") (pick (at_ TClass) "Act" "")
       (pick (at_ TIndices) [mkIdx "ix" ["price"]] []);
     mkTable "b" [mkCol "id" "int64" "" 0 0 true true false false "" "" [] None;
                  mkCol "key" "int64" "" 0 0 true false false false "" "" [] None] "" "h" "" [];
     mkTable "c" [mkCol "id" "int64" "" 0 0 true true false false "" "" [] None;
                  mkCol "key" "int64" "" 0 0 true false false false "" "" [] None] "" "h" "" []].

Definition matter_file (x : option attribute) : files := fun _ => Some (ex_text (changed x)).
Definition matter_values : values :=
  option_values [("input", "a.json"); ("output", "o"); ("groups", "g,h"); ("relation", "VRelation"); ("comments", "true")].

Lemma changed_same : forall a, same_schema (fun b => b <> a) (changed None) (changed (Some a)).
Proof.
  intros a; destruct a; unfold same_schema; cbn;
    repeat match goal with
           | |- _ /\ _ => split
           | |- Forall2 _ _ _ => constructor
           | |- same_table _ _ _ => unfold same_table; cbn
           | |- same_column _ _ _ => unfold same_column; cbn
           | |- _ -> _ => intros ?
           | |- _ = _ => first [ reflexivity | congruence ]
           end.
Qed.
Lemma changed_loads : forall x, load_file end_world (matter_file x) "a.json" = Loaded (changed x).
Proof. intros [a|]; [ destruct a | ]; vm_compute; reflexivity. Qed.

Definition same_files (a b : list (string * string)) : bool := if list_eq_dec (fun x y : string * string =>
  match string_dec (fst x) (fst y), string_dec (snd x) (snd y) with
  | left p, left q => left (eq_trans (surjective_pairing x) (eq_trans (f_equal2 pair p q) (eq_sym (surjective_pairing y))))
  | right p, _ => right (fun e => p (f_equal fst e))
  | _, right q => right (fun e => q (f_equal snd e))
  end) a b then true else false.
Definition seen (c : command) (a : attribute) : bool :=
  match run end_world (matter_file None) c matter_values, run end_world (matter_file (Some a)) c matter_values with
  | (x, Done), (y, Done) => negb (same_files x y)
  | _, _ => false
  end.
Lemma seen_iff : forall c a, seen c a = true ->
  snd (run end_world (matter_file None) c matter_values) = Done /\
  snd (run end_world (matter_file (Some a)) c matter_values) = Done /\
  fst (run end_world (matter_file None) c matter_values) <> fst (run end_world (matter_file (Some a)) c matter_values).
Proof.
  intros c a. unfold seen. destruct (run _ (matter_file None) c _) as [x []]; try discriminate.
  destruct (run _ (matter_file (Some a)) c _) as [y []]; try discriminate. unfold same_files. cbn.
  destruct (list_eq_dec _ x y); [ discriminate | ]. auto.
Qed.
Lemma all_seen : forall c, match looks_at c with Some l => forallb (seen c) l = true | None => True end.
Proof. intros []; try exact I; vm_compute; reflexivity. Qed.

Lemma each_one : forall c l a, looks_at c = Some l -> In a l ->
  exists w fs fs' v n s r, real_world w /\ v "input" = Some n /\ load_file w fs n = Loaded s /\
    load_file w fs' n = Loaded r /\ same_schema (fun b => b <> a) s r /\
    snd (run w fs c v) = Done /\ snd (run w fs' c v) = Done /\ fst (run w fs c v) <> fst (run w fs' c v).
Proof.
  intros c l a E I. pose proof (all_seen c) as H. rewrite E in H. rewrite forallb_forall in H. apply H, seen_iff in I.
  destruct I as (D1 & D2 & N).
  exists end_world, (matter_file None), (matter_file (Some a)), matter_values, "a.json", (changed None), (changed (Some a)).
  exact (conj end_real (conj eq_refl (conj (changed_loads None) (conj (changed_loads (Some a)) (conj (changed_same a)
    (conj D1 (conj D2 N))))))).
Qed.
