(** Model of /repo/util: set.go, multimap.go, memoization.go, types.go, string.go *)
From Coq Require Import String Ascii List NArith ZArith Bool.
From Verif.Model Require Import GoString.
Import ListNotations.
Local Open Scope string_scope.

(** ** util/set.go *)

(** StringSet, set.go:9-11. The map's keys; the values are always [true].
    A key occurs at most once (kept by the operations). *)
Definition sset := list string.

(** set.go:33-36 Contains *)
Definition ss_contains (s : sset) (k : string) : bool := str_in k s.

(** set.go:23-25 Add *)
Definition ss_add (s : sset) (v : string) : sset :=
  if ss_contains s v then s else (s ++ [v])%list.

(** set.go:27-31 AddAll *)
Definition ss_add_all (s : sset) (vs : list string) : sset := fold_left ss_add vs s.

(** set.go:13-21 NewStringSet *)
Definition ss_new (items : list string) : sset := fold_left ss_add items [].

(** set.go:38-45 ContainsAny (loop with early return) *)
Fixpoint ss_contains_any (s : sset) (ks : list string) : bool :=
  match ks with
  | [] => false
  | k :: ks' => if ss_contains s k then true else ss_contains_any s ks'
  end.

(** set.go:47-54 ContainsAll *)
Fixpoint ss_contains_all (s : sset) (ks : list string) : bool :=
  match ks with
  | [] => true
  | k :: ks' => if negb (ss_contains s k) then false else ss_contains_all s ks'
  end.

(** set.go:56-58 Remove *)
Definition ss_remove (s : sset) (k : string) : sset :=
  filter (fun x => negb (String.eqb x k)) s.

(** set.go:60-64 RemoveAll *)
Definition ss_remove_all (s : sset) (ks : list string) : sset := fold_left ss_remove ks s.

(** set.go:66-68 Clear *)
Definition ss_clear (s : sset) : sset := [].

(** set.go:70-77 Slice. [ord] is the order in which Go happens to iterate the map. *)
Definition ss_slice_ord (ord : list string -> list string) (s : sset) : list string :=
  sort_strings (ord s).

(** Slice with an arbitrary fixed order; used by the callers. Props/UtilProps
    shows that the order is irrelevant. *)
Definition ss_slice (s : sset) : list string := ss_slice_ord (fun l => l) s.

(** set.go:79-81 Join *)
Definition ss_join (s : sset) (sep : string) : string := join sep (ss_slice s).

(** set.go:83-85 Equals: cmp.Equal on map[string]bool, i.e. same size and every
    key of one in the other (all values are [true]). *)
Definition ss_equals (a b : sset) : bool :=
  Nat.eqb (length a) (length b) && forallb (fun k => ss_contains b k) a.

(** set.go:87-89 Size *)
Definition ss_size (s : sset) : nat := length s.

(** ** util/multimap.go

    Keys and values are [interface{}] in Go; the model is generic in both, given
    a Boolean equality. The store is an association list with distinct keys. *)
Section MultiMap.
  Context {K V : Type} (keqb : K -> K -> bool) (veqb : V -> V -> bool).

  Definition mmap := list (K * list V).

  (** multimap.go:35-38 Get *)
  Fixpoint mm_get (m : mmap) (k : K) : option (list V) :=
    match m with
    | [] => None
    | (k', vs) :: m' => if keqb k k' then Some vs else mm_get m' k
    end.

  (** store[key] = values *)
  Fixpoint mm_set (m : mmap) (k : K) (vs : list V) : mmap :=
    match m with
    | [] => [(k, vs)]
    | (k', vs') :: m' => if keqb k k' then (k', vs) :: m' else (k', vs') :: mm_set m' k vs
    end.

  (** multimap.go:22-24 Clear *)
  Definition mm_clear (m : mmap) : mmap := [].

  (** multimap.go:26-29 ContainsKey *)
  Definition mm_contains_key (m : mmap) (k : K) : bool :=
    match mm_get m k with Some _ => true | None => false end.

  (** multimap.go:31-33 Empty *)
  Definition mm_empty (m : mmap) : bool := Nat.eqb (length m) 0.

  (** multimap.go:40-48 Keys; [ord] is the map iteration order *)
  Definition mm_keys (ord : list K -> list K) (m : mmap) : list K := ord (map fst m).

  (** multimap.go:50-52 Put *)
  Definition mm_put (m : mmap) (k : K) (v : V) : mmap :=
    mm_set m k (match mm_get m k with Some vs => vs ++ [v] | None => [v] end)%list.

  (** multimap.go:54-56 RemoveKey *)
  Definition mm_remove_key (m : mmap) (k : K) : mmap :=
    filter (fun e => negb (keqb k (fst e))) m.

  (** multimap.go:58-70 RemoveValue.

      [values] is a slice header (array, length n). The range loop evaluates the
      header once and reads element i from the backing array at iteration i, so it
      sees earlier overwrites. [append(values[:i], values[i+1:]...)] fits in the
      capacity, so it shifts the tail of the same array one to the left (the last
      cell keeps its old value) and returns a header of length n-1. All stores go
      to m.store[key], of which the last one wins.

      [arr] is the array (length n), [res] the length of the stored header. *)
  Definition shift_left_at (i : nat) (arr : list V) : list V :=
    (firstn i arr ++ skipn (S i) arr ++ skipn (length arr - 1) arr)%list.

  Fixpoint rv_loop (v : V) (i : nat) (steps : nat) (arr : list V) (res : nat) : list V * nat :=
    match steps with
    | O => (arr, res)
    | S steps' =>
        match nth_error arr i with
        | Some x =>
            if veqb x v
            then rv_loop v (S i) steps' (shift_left_at i arr) (length arr - 1)
            else rv_loop v (S i) steps' arr res
        | None => (arr, res)
        end
    end.

  Definition mm_remove_value (m : mmap) (k : K) (v : V) : mmap :=
    let m1 :=
      match mm_get m k with
      | None => m
      | Some values =>
          let '(arr, n) := rv_loop v 0 (length values) values (length values) in
          mm_set m k (firstn n arr)
      end in
    match mm_get m1 k with
    | Some (_ :: _) => m1
    | _ => mm_remove_key m1 k
    end.
End MultiMap.

(** ** util/memoization.go *)
Section Memo.
  Context {K S : Type} (keqb : K -> K -> bool).
  (** The wrapped function may read and change some state [S]. *)
  Variable fn : K -> S -> string * S.

  Fixpoint cache_find (c : list (K * string)) (k : K) : option string :=
    match c with
    | [] => None
    | (k', v) :: c' => if keqb k k' then Some v else cache_find c' k
    end.

  (** memoization.go:6-13, the returned closure. Also records the calls to [fn]. *)
  Definition memo_call (k : K) (st : list (K * string) * S * list K)
    : string * (list (K * string) * S * list K) :=
    let '(cache, s, log) := st in
    match cache_find cache k with
    | Some v => (v, (cache, s, log))
    | None => let '(v, s') := fn k s in
              (v, ((k, v) :: cache, s', (log ++ [k])%list))
    end.

  Fixpoint memo_run (ks : list K) (st : list (K * string) * S * list K)
    : list string * (list (K * string) * S * list K) :=
    match ks with
    | [] => ([], st)
    | k :: ks' => let '(v, st1) := memo_call k st in
                  let '(vs, st2) := memo_run ks' st1 in
                  (v :: vs, st2)
    end.

  (** memoization.go:3-4: a fresh memoizer has an empty cache *)
  Definition memo_new (s : S) : list (K * string) * S * list K := ([], s, []).
End Memo.

(** ** util/types.go *)

(** types.go:9-18 IsStringType *)
Definition is_string_type (typ : string) : bool :=
  let l := to_lower typ in contains "char" l || contains "string" l.

(** types.go:20-29 IsBooleanType *)
Definition is_boolean_type (typ : string) : bool :=
  str_in (to_lower typ) ["bool"; "boolean"].

(** types.go:31-40 IsNumericType *)
Definition is_numeric_type (typ : string) : bool :=
  str_in (to_lower typ)
    ["decimal"; "float"; "double"; "long"; "bigint"; "int"; "smallint"; "number"].

(** types.go:42-51 IsIntType *)
Definition is_int_type (typ : string) : bool :=
  str_in (to_lower typ) ["long"; "bigint"; "int"; "smallint"].

(** types.go:53-62 IsDateType *)
Definition is_date_type (typ : string) : bool :=
  str_in (to_lower typ) ["date"; "datetime"].

(** longest prefix of characters in a class, and the rest *)
Fixpoint span (f : ascii -> bool) (s : string) : string * string :=
  match s with
  | EmptyString => (EmptyString, EmptyString)
  | String c s' =>
      if f c then let '(a, b) := span f s' in (String c a, b)
      else (EmptyString, s)
  end.

Definition is_sep (c : ascii) : bool := is_re_space c || Ascii.eqb c ",".

(** Match of the regular expression of types.go:67 at the start of [s].
    The character classes of neighbouring parts are disjoint except for the two
    digit groups, where the first one is greedy, so there is no backtracking that
    could succeed where this fails. *)
Definition match_type_at (s : string) : option (string * string * string) :=
  let '(name, r1) := span is_letter s in
  match name, r1 with
  | EmptyString, _ => None
  | _, String c r2 =>
      if Ascii.eqb c "(" then
        let '(size, r3) := span is_digit r2 in
        match size with
        | EmptyString => None
        | _ =>
            let '(_, r4) := span is_sep r3 in
            let '(scale, r5) := span is_digit r4 in
            match r5 with
            | String d _ => if Ascii.eqb d ")" then Some (name, size, scale) else None
            | EmptyString => None
            end
        end
      else None
  | _, EmptyString => None
  end.

(** leftmost match *)
Fixpoint match_type (s : string) : option (string * string * string) :=
  match match_type_at s with
  | Some r => Some r
  | None => match s with
            | EmptyString => None
            | String _ s' => match_type s'
            end
  end.

(** types.go:64-88 ParseType *)
Definition parse_type (s : string) : string * N * N :=
  match match_type s with
  | Some (name, size, scale) => (name, u16 (atoi_digits size), u16 (atoi_digits scale))
  | None => (s, 0%N, 0%N)
  end.

(** ** util/string.go *)

(** string.go:26-32 BoolToString *)
Definition bool_to_string (b : bool) (t f : string) : string := if b then t else f.

(** string.go:34-36 Quote *)
Definition quote (text q : string) : string := q ++ text ++ q.

(** string.go:38-44 QuoteAndJoin *)
Definition quote_and_join (texts : list string) (q sep : string) : string :=
  join sep (map (fun t => quote t q) texts).
