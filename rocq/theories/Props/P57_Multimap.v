(** RemoveValue of multimaps (/repo/util/multimap.go), exactly *)
From Coq Require Import String List Bool.
From Verif.Model Require Import GoString Util.
From Verif.Spec Require Import UtilSpec UtilRun MultimapSpec.
From Verif.Proofs Require Import UtilProofs MultimapProofs.
Import ListNotations.
Local Open Scope string_scope.

(** C02, RemoveValue of a value that is stored under k, however often: there is one value less. Every copy goes,
    except one directly after a copy that went, and the places of the further ones are filled with the last value. *)
Theorem C02_remove_value_exact :
  forall (K V : Type) (keqb : K -> K -> bool) (veqb : V -> V -> bool),
  (forall a b, keqb a b = true <-> a = b) -> (forall a b, veqb a b = true <-> a = b) ->
  forall (h : list (mm_op K V)) (k : K) vs v z, values_of h k (vs ++ [z]) -> In v (vs ++ [z]) ->
    (exists thin rest, thinned v (vs ++ [z]) thin /\ filled z (length vs) thin rest) /\
    forall thin rest, thinned v (vs ++ [z]) thin -> filled z (length vs) thin rest ->
    forall k', mm_get keqb (mm_remove_value keqb veqb (mm_run keqb h) k v) k' =
      if keqb k' k then to_opt rest else mm_get keqb (mm_run keqb h) k'.
Proof. exact @remove_value_exact. Qed.
Print Assumptions C02_remove_value_exact.

(** So a value other than the removed one can be there more often than before. *)
Theorem C02_remove_value_copies_refuted : exists (h : list (mm_op string nat)) (k : string) (v w : nat) (vs l : list nat),
  values_of h k vs /\ mm_get String.eqb (mm_remove_value String.eqb Nat.eqb (mm_run String.eqb h) k v) k = Some l /\
  v <> w /\ count_occ PeanoNat.Nat.eq_dec vs w < count_occ PeanoNat.Nat.eq_dec l w.
Proof. exact remove_value_copies. Qed.
Print Assumptions C02_remove_value_copies_refuted.

Example C02_exact_case :
  let m := mm_run String.eqb [MPut "k" 2; MPut "k" 2; MPut "k" 1; MPut "k" 2; MPut "k" 3] in
  mm_get String.eqb (mm_remove_value String.eqb Nat.eqb m "k" 2) "k" = Some [2; 1; 3; 3] /\
  thinned 2 [2; 2; 1; 2; 3] [2; 1; 3] /\ filled 3 4 [2; 1; 3] [2; 1; 3; 3].
Proof.
  split; [vm_compute; reflexivity|]. split; [|repeat constructor].
  apply th_skip. apply th_keep; [discriminate|]. apply th_skip. constructor.
Qed.
