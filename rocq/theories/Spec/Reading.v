(** Small tools for reading a generated text back, line by line *)
From Coq Require Import String Ascii List NArith Bool.
From Verif.Spec Require Import Text.
Import ListNotations.
Local Open Scope string_scope.

Definition newline : ascii := "010".

(** the part before and the part after the first [c] *)
Fixpoint cut (c : ascii) (s : string) : option (string * string) :=
  match s with
  | EmptyString => None
  | String d s' =>
      if Ascii.eqb c d then Some ("", s')
      else match cut c s' with Some (a, b) => Some (String d a, b) | None => None end
  end.

Fixpoint lines (s : string) : list string :=
  match s with
  | EmptyString => [""]
  | String c s' =>
      if Ascii.eqb c newline then "" :: lines s'
      else match lines s' with l :: ls => String c l :: ls | [] => [String c ""] end
  end.

(** the parts between the occurrences of [c] *)
Fixpoint split_on (c : ascii) (s : string) : list string :=
  match s with
  | EmptyString => [""]
  | String d s' =>
      if Ascii.eqb d c then "" :: split_on c s'
      else match split_on c s' with l :: ls => String d l :: ls | [] => [String d ""] end
  end.

(** up to the first space; the space stays with the second part *)
Fixpoint until_space (s : string) : string * string :=
  match s with
  | EmptyString => ("", "")
  | String c s' => if Ascii.eqb c " " then ("", s) else let '(a, b) := until_space s' in (String c a, b)
  end.

(** what follows the prefix [p] *)
Fixpoint strip (p s : string) : option string :=
  match p, s with
  | EmptyString, _ => Some s
  | String a p', String b s' => if Ascii.eqb a b then strip p' s' else None
  | _, EmptyString => None
  end.

(** what comes before the suffix [p] *)
Fixpoint strip_end (p s : string) : option string :=
  if String.eqb s p then Some ""
  else match s with
       | EmptyString => None
       | String c s' => match strip_end p s' with Some a => Some (String c a) | None => None end
       end.

(** what lies between [p] and [q] *)
Definition between (p q s : string) : option string :=
  match strip p s with Some r => strip_end q r | None => None end.

(** whether [p] comes next, and what follows *)
Definition accept (p s : string) : bool * string :=
  match strip p s with Some r => (true, r) | None => (false, s) end.

Fixpoint read_all {A B} (f : A -> option B) (l : list A) : option (list B) :=
  match l with
  | [] => Some []
  | x :: l' => match f x, read_all f l' with
               | Some y, Some ys => Some (y :: ys)
               | _, _ => None
               end
  end.

(** letters, digits, underscores and bytes above 127 *)
Definition word_char (c : ascii) : bool :=
  let n := N_of_ascii c in
  (N.leb 48 n && N.leb n 57) || (N.leb 65 n && N.leb n 90) || N.eqb n 95 ||
  (N.leb 97 n && N.leb n 122) || N.leb 128 n.
Definition word (s : string) : Prop := s <> "" /\ all_chars (fun c => word_char c = true) s.
(** no line break *)
Definition one_line (s : string) : Prop := ~ char_in newline s.
