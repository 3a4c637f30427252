(** Properties of /repo/util *)
From Coq Require Import String Ascii List Bool NArith Sorting.Permutation.
From Verif.Model Require Import GoString Util.
From Verif.Spec Require Import Order UtilSpec UtilRun.
From Verif.Proofs Require Import UtilProofs.
Import ListNotations.
Local Open Scope string_scope.

(** C01. [ss_run items h] is NewStringSet(items...) followed by the calls h;
    [is_member (history items h) k]: k was put in and not taken out afterwards. *)
Theorem C01_stringset_is_a_set : forall items h,
  let s := ss_run items h in
  (forall k, ss_contains s k = true <-> is_member (history items h) k) /\
  (forall ks, ss_contains_any s ks = true <-> exists k, In k ks /\ is_member (history items h) k) /\
  (forall ks, ss_contains_all s ks = true <-> forall k, In k ks -> is_member (history items h) k) /\
  (forall ord, (forall l, Permutation (ord l) l) ->
     strictly_increasing (ss_slice_ord ord s) /\
     (forall k, In k (ss_slice_ord ord s) <-> is_member (history items h) k) /\
     ss_size s = length (ss_slice_ord ord s) /\
     forall sep, ss_join s sep = join sep (ss_slice_ord ord s)) /\
  (forall items' h', ss_equals s (ss_run items' h') = true <->
     forall k, is_member (history items h) k <-> is_member (history items' h') k).
Proof. exact stringset_semantics. Qed.
Print Assumptions C01_stringset_is_a_set.

Example C01_case :
  let s := ss_run ["b"; "a"; "b"] [OpRemove "b"; OpAddAll ["c"; "b"]; OpRemoveAll ["a"; "x"]] in
  (ss_slice_ord (@rev string) s, ss_size s, ss_contains s "a", ss_join s "-",
   ss_equals s (ss_run ["c"; "b"] [])) = (["b"; "c"], 2, false, "b-c", true).
Proof. vm_compute. reflexivity. Qed.

(** C02, histories of Put, RemoveKey and Clear. *)
Theorem C02_multimap_history : forall (K V : Type) (keqb : K -> K -> bool),
  (forall a b, keqb a b = true <-> a = b) ->
  forall (h : list (mm_op K V)) (k : K),
  (exists vs, values_of h k vs) /\
  forall vs, values_of h k vs ->
    mm_get keqb (mm_run keqb h) k = (match vs with [] => None | _ => Some vs end) /\
    mm_contains_key keqb (mm_run keqb h) k = negb (Nat.eqb (length vs) 0) /\
    (forall ord, (forall l, Permutation (ord l) l) ->
        NoDup (mm_keys ord (mm_run keqb h)) /\ (In k (mm_keys ord (mm_run keqb h)) <-> vs <> [])) /\
    (mm_empty (mm_run keqb h) = true <-> forall k', values_of h k' []).
Proof.
  exact (fun K V keqb H h k =>
    conj (values_of_total keqb H h k) (multimap_history keqb H h k)).
Qed.
Print Assumptions C02_multimap_history.

(** C02, RemoveValue. Full statement: the following without the hypothesis that v is
    stored at most once under k. It is false, see C02_remove_value_refuted. *)
Theorem C02_remove_value_partial :
  forall (K V : Type) (keqb : K -> K -> bool) (veqb : V -> V -> bool),
  (forall a b, keqb a b = true <-> a = b) -> (forall a b, veqb a b = true <-> a = b) ->
  forall (h : list (mm_op K V)) (k : K) vs v,
    values_of h k vs -> (length (filter (fun x => veqb x v) vs) <= 1)%nat ->
    forall k', mm_get keqb (mm_remove_value keqb veqb (mm_run keqb h) k v) k' =
      if keqb k' k then to_opt (filter (fun x => negb (veqb x v)) vs)
      else mm_get keqb (mm_run keqb h) k'.
Proof. exact @remove_value_history. Qed.
Print Assumptions C02_remove_value_partial.

Example C02_case :
  let m := mm_run String.eqb [MPut "k" 1; MPut "j" 7; MPut "k" 2; MPut "k" 3] in
  let m' := mm_remove_value String.eqb Nat.eqb m "k" 2 in
  (mm_get String.eqb m' "k", mm_get String.eqb m' "j",
   mm_get String.eqb (mm_remove_value String.eqb Nat.eqb m "j" 7) "j") = (Some [1; 3], Some [7], None).
Proof. vm_compute. reflexivity. Qed.

(** With a value stored twice in a row, one copy survives. *)
Theorem C02_remove_value_refuted :
  exists (h : list (mm_op string nat)) (k : string) (v : nat) (vs : list nat),
    values_of h k vs /\
    exists l, mm_get String.eqb (mm_remove_value String.eqb Nat.eqb (mm_run String.eqb h) k v) k = Some l
              /\ In v l.
Proof. exact remove_value_duplicate. Qed.
Print Assumptions C02_remove_value_refuted.

(** C03. [us] are the distinct keys in order of first use; the wrapped function runs on
    exactly these, in this order, and each call gets the result of the run on its key. *)
Theorem C03_memo_once_per_key : forall (K S : Type) (keqb : K -> K -> bool),
  (forall a b, keqb a b = true <-> a = b) ->
  forall (fn : K -> S -> string * S) (ks : list K) (s0 : S),
  (exists us, first_uses ks us) /\
  forall us, first_uses ks us ->
    let '(rs, sN) := run_all fn us s0 in
    let '(outs, (_, s, log)) := memo_run keqb fn ks (memo_new s0) in
    log = us /\ s = sN /\ NoDup us /\ length outs = length ks /\
    forall i k v, nth_error ks i = Some k -> nth_error outs i = Some v -> In (k, v) rs.
Proof.
  exact (fun K S keqb H fn ks s0 =>
    conj (first_uses_total keqb H ks) (fun us => memo_history keqb H fn ks us s0)).
Qed.
Print Assumptions C03_memo_once_per_key.

Example C03_case :
  memo_run String.eqb (fun k n => (k ++ itoa (N.of_nat n), S n)) ["a"; "b"; "a"; "c"; "b"] (memo_new 0)
  = (["a0"; "b1"; "a0"; "c2"; "b1"],
     ([("c", "c2"); ("b", "b1"); ("a", "a0")], 3, ["a"; "b"; "c"])).
Proof. vm_compute. reflexivity. Qed.
