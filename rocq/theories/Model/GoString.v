(** Go string primitives used all over /repo.

    These are Go standard library functions (strings, strconv, fmt), not code
    of /repo; they are modelled because the properties depend on them.
    Simplification: letters, case and white space are ASCII only. *)
From Coq Require Import String Ascii List NArith ZArith Bool.
From Coq Require Import Decimal DecimalString.
Import ListNotations.
Local Open Scope string_scope.

(** ** Characters *)

Definition is_upper (c : ascii) : bool :=
  let n := nat_of_ascii c in (65 <=? n)%nat && (n <=? 90)%nat.
Definition is_lower (c : ascii) : bool :=
  let n := nat_of_ascii c in (97 <=? n)%nat && (n <=? 122)%nat.
(** regexp class [a-zA-Z] *)
Definition is_letter (c : ascii) : bool := is_upper c || is_lower c.
(** regexp class [0-9] *)
Definition is_digit (c : ascii) : bool :=
  let n := nat_of_ascii c in (48 <=? n)%nat && (n <=? 57)%nat.
(** unicode.IsSpace restricted to ASCII: '\t' '\n' '\v' '\f' '\r' ' ' *)
Definition is_space (c : ascii) : bool :=
  let n := nat_of_ascii c in ((9 <=? n)%nat && (n <=? 13)%nat) || (n =? 32)%nat.
(** regexp class \s (RE2): [\t\n\f\r ], without '\v' *)
Definition is_re_space (c : ascii) : bool :=
  let n := nat_of_ascii c in
  (n =? 9)%nat || (n =? 10)%nat || (n =? 12)%nat || (n =? 13)%nat || (n =? 32)%nat.

Definition lower_ascii (c : ascii) : ascii :=
  if is_upper c then ascii_of_nat (nat_of_ascii c + 32) else c.

Fixpoint string_map (f : ascii -> ascii) (s : string) : string :=
  match s with
  | EmptyString => EmptyString
  | String c s' => String (f c) (string_map f s')
  end.

Fixpoint string_forallb (f : ascii -> bool) (s : string) : bool :=
  match s with
  | EmptyString => true
  | String c s' => f c && string_forallb f s'
  end.

(** strings.ToLower (ASCII) *)
Definition to_lower (s : string) : string := string_map lower_ascii s.

(** ** Prefixes, containment *)

(** strings.HasPrefix(s, p) *)
Definition has_prefix (p s : string) : bool := String.prefix p s.

(** s[n:] *)
Fixpoint string_drop (n : nat) (s : string) : string :=
  match n, s with
  | O, _ => s
  | S n', String _ s' => string_drop n' s'
  | S _, EmptyString => EmptyString
  end.

(** strings.TrimPrefix(s, p) *)
Definition trim_prefix (p s : string) : string :=
  if has_prefix p s then string_drop (String.length p) s else s.

(** strings.Contains(s, sub) *)
Fixpoint contains (sub s : string) : bool :=
  has_prefix sub s ||
  match s with
  | EmptyString => false
  | String _ s' => contains sub s'
  end.

(** strings.Contains(s, c) for a one byte string *)
Fixpoint contains_char (c : ascii) (s : string) : bool :=
  match s with
  | EmptyString => false
  | String d s' => Ascii.eqb c d || contains_char c s'
  end.

Fixpoint string_rev_app (s acc : string) : string :=
  match s with
  | EmptyString => acc
  | String c s' => string_rev_app s' (String c acc)
  end.
Definition string_rev (s : string) : string := string_rev_app s EmptyString.

(** ** Splitting and joining *)

(** strings.Split(s, c) for a one byte separator: never the empty list. *)
Fixpoint split_char (c : ascii) (s : string) : list string :=
  match s with
  | EmptyString => [EmptyString]
  | String d s' =>
      if Ascii.eqb c d then EmptyString :: split_char c s'
      else match split_char c s' with
           | [] => [String d EmptyString]
           | x :: xs => String d x :: xs
           end
  end.

(** strings.SplitN(s, c, 2) for a one byte separator:
    [(head, Some tail)] when the separator occurs, [(s, None)] otherwise. *)
Fixpoint split_once (c : ascii) (s : string) : string * option string :=
  match s with
  | EmptyString => (EmptyString, None)
  | String d s' =>
      if Ascii.eqb c d then (EmptyString, Some s')
      else let '(h, t) := split_once c s' in (String d h, t)
  end.

(** strings.Join *)
Fixpoint join (sep : string) (l : list string) : string :=
  match l with
  | [] => ""
  | [x] => x
  | x :: xs => x ++ sep ++ join sep xs
  end.

(** ** strings.TrimSpace (ASCII) *)

Fixpoint trim_left (s : string) : string :=
  match s with
  | String c s' => if is_space c then trim_left s' else s
  | EmptyString => EmptyString
  end.

Fixpoint trim_right (s : string) : string :=
  match s with
  | EmptyString => EmptyString
  | String c s' =>
      let r := trim_right s' in
      if is_space c && String.eqb r EmptyString then EmptyString else String c r
  end.

Definition trim_space (s : string) : string := trim_right (trim_left s).

(** ** Numbers *)

(** fmt.Sprintf("%d", n) for a non-negative number *)
Definition itoa (n : N) : string := NilZero.string_of_uint (N.to_uint n).

(** decimal digits to a number; [None] on the empty string or a non-digit *)
Definition digits_to_N (s : string) : option N :=
  option_map N.of_uint (NilZero.uint_of_string s).

Definition max_int64 : N := 9223372036854775807.

(** strconv.Atoi on a string of digits, error ignored: 0 on the empty string,
    saturates at MaxInt64. *)
Definition atoi_digits (s : string) : N :=
  match digits_to_N s with
  | None => 0%N
  | Some n => N.min n max_int64
  end.

(** conversion of an int to uint16 *)
Definition u16 (n : N) : N := (n mod 65536)%N.

(** ** Order and sorting *)

(** Go's [<=] on strings: byte-wise lexicographic *)
Fixpoint str_leb (a b : string) : bool :=
  match a, b with
  | EmptyString, _ => true
  | String _ _, EmptyString => false
  | String x a', String y b' =>
      if (nat_of_ascii x <? nat_of_ascii y)%nat then true
      else if (nat_of_ascii x =? nat_of_ascii y)%nat then str_leb a' b'
      else false
  end.

(** Go's [<] on strings *)
Definition str_ltb (a b : string) : bool := str_leb a b && negb (String.eqb a b).

Fixpoint insert_str (x : string) (l : list string) : list string :=
  match l with
  | [] => [x]
  | y :: l' => if str_leb x y then x :: l else y :: insert_str x l'
  end.

(** sort.Strings. Equal strings are indistinguishable, so any correct sort
    gives the same result; insertion sort is used. *)
Fixpoint sort_strings (l : list string) : list string :=
  match l with
  | [] => []
  | x :: l' => insert_str x (sort_strings l')
  end.

Definition str_in (x : string) (l : list string) : bool :=
  existsb (String.eqb x) l.
