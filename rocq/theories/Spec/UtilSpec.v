(** Specifications for the containers of /repo/util: what a history of operations
    means, without reference to how the containers are implemented. *)
From Coq Require Import String Ascii List.
Import ListNotations.

(** ** Sets *)

(** The calls a client can make on a StringSet *)
Inductive set_op :=
| OpAdd (k : string)
| OpAddAll (ks : list string)
| OpRemove (k : string)
| OpRemoveAll (ks : list string)
| OpClear.

(** What they do, one key at a time *)
Inductive set_event := EvIn (k : string) | EvOut (k : string) | EvClear.

Definition events_of (o : set_op) : list set_event :=
  match o with
  | OpAdd k => [EvIn k]
  | OpAddAll ks => map EvIn ks
  | OpRemove k => [EvOut k]
  | OpRemoveAll ks => map EvOut ks
  | OpClear => [EvClear]
  end.

(** k was put in, and not taken out afterwards *)
Definition is_member (es : list set_event) (k : string) : Prop :=
  exists before after,
    es = before ++ EvIn k :: after /\ ~ In (EvOut k) after /\ ~ In EvClear after.

(** ** Multimaps *)
Section MultiMap.
  Context {K V : Type}.

  Inductive mm_op := MPut (k : K) (v : V) | MRemoveKey (k : K) | MClear.

  (** [values_of h k vs]: after history h (oldest call first), vs are the values put under
      k since the last RemoveKey(k) or Clear, in the order they were put. *)
  Inductive values_of : list mm_op -> K -> list V -> Prop :=
  | vo_nil : forall k, values_of [] k []
  | vo_put : forall h k v vs, values_of h k vs -> values_of (h ++ [MPut k v]) k (vs ++ [v])
  | vo_put_other : forall h k k' v vs, k' <> k ->
      values_of h k vs -> values_of (h ++ [MPut k' v]) k vs
  | vo_remove : forall h k, values_of (h ++ [MRemoveKey k]) k []
  | vo_remove_other : forall h k k' vs, k' <> k ->
      values_of h k vs -> values_of (h ++ [MRemoveKey k']) k vs
  | vo_clear : forall h k, values_of (h ++ [MClear]) k [].
End MultiMap.
Arguments mm_op : clear implicits.

(** ** Memoization *)

(** the keys of a call history in order of first use *)
Inductive first_uses {K : Type} : list K -> list K -> Prop :=
| fu_nil : first_uses [] []
| fu_new : forall ks us k, first_uses ks us -> ~ In k ks -> first_uses (ks ++ [k]) (us ++ [k])
| fu_old : forall ks us k, first_uses ks us -> In k ks -> first_uses (ks ++ [k]) us.
