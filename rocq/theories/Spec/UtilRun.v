(** Client histories run on the model of /repo/util, and helper notions for the statements. *)
From Coq Require Import String Ascii List.
From Verif.Model Require Import GoString Util.
From Verif.Spec Require Import UtilSpec.
Import ListNotations.

(** running a history of calls *)
Definition ss_step (s : sset) (o : set_op) : sset :=
  match o with
  | OpAdd k => ss_add s k
  | OpAddAll ks => ss_add_all s ks
  | OpRemove k => ss_remove s k
  | OpRemoveAll ks => ss_remove_all s ks
  | OpClear => ss_clear s
  end.
Definition ss_run (items : list string) (h : list set_op) : sset :=
  fold_left ss_step h (ss_new items).

Definition history (items : list string) (h : list set_op) : list set_event :=
  map EvIn items ++ flat_map events_of h.

Section MM.
  Context {K V : Type} (keqb : K -> K -> bool).

  Definition mm_step (m : @mmap K V) (o : mm_op K V) : mmap :=
    match o with
    | MPut k v => mm_put keqb m k v
    | MRemoveKey k => mm_remove_key keqb m k
    | MClear => mm_clear m
    end.
  Definition mm_run (h : list (mm_op K V)) : @mmap K V := fold_left mm_step h [].

  (** Get yields nothing rather than an empty list *)
  Definition to_opt (l : list V) : option (list V) := match l with [] => None | _ => Some l end.

End MM.

Section MemoRun.
  Context {K S : Type} (fn : K -> S -> string * S).

  (** results and final state of running [fn] on a list of keys, one after the other *)
  Fixpoint run_all (ks : list K) (s : S) : list (K * string) * S :=
    match ks with
    | [] => ([], s)
    | k :: ks' => let '(v, s') := fn k s in let '(r, s'') := run_all ks' s' in ((k, v) :: r, s'')
    end.

End MemoRun.
