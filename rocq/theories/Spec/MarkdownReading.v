(** Headings and fenced code in Markdown (spec.commonmark.org/0.30, 4.2 and 4.5), and decimal numbers *)
From Coq Require Import String Ascii List NArith ZArith Bool.
From Verif.Spec Require Import Text Reading.
Import ListNotations.
Local Open Scope string_scope.

Inductive block := Heading (level : nat) (text : string) | Fenced (lang : string) (code : list string) | Plain (line : string).

(** up to [n] spaces are skipped *)
Fixpoint unindent (n : nat) (s : string) : string :=
  match n, s with
  | S n', String " " s' => unindent n' s'
  | _, _ => s
  end.
Fixpoint backticks (s : string) : nat * string :=
  match s with
  | String "`" s' => let '(n, r) := backticks s' in (S n, r)
  | _ => (0, s)
  end.
Fixpoint only_spaces (s : string) : bool :=
  match s with "" => true | String c s' => Ascii.eqb c " " && only_spaces s' end.
Fixpoint has_backtick (s : string) : bool :=
  match s with "" => false | String c s' => Ascii.eqb c "`" || has_backtick s' end.

(** the number of backticks of a line that opens a fence, and what follows *)
Definition opens (s : string) : option (nat * string) :=
  let '(n, r) := backticks (unindent 3 s) in
  if Nat.leb 3 n && negb (has_backtick r) then Some (n, r) else None.
Definition closes (n : nat) (s : string) : bool :=
  let '(m, r) := backticks (unindent 3 s) in Nat.leb n m && only_spaces r.
(** "# text", up to three marks; other forms of headings are not needed *)
Definition heading (s : string) : option (nat * string) :=
  match strip "# " s with Some r => Some (1, r) | None =>
  match strip "## " s with Some r => Some (2, r) | None =>
  match strip "### " s with Some r => Some (3, r) | None => None end end end.

(** [open]: the fence being read: its backticks, language and lines. The end of the document closes it. *)
Fixpoint read_blocks (open : option (nat * string * list string)) (ls : list string) : list block :=
  match ls with
  | [] => match open with None => [] | Some (_, lang, code) => [Fenced lang code] end
  | l :: ls' =>
      match open with
      | Some (n, lang, code) =>
          if closes n l then Fenced lang code :: read_blocks None ls'
          else read_blocks (Some (n, lang, (code ++ [l])%list)) ls'
      | None =>
          match opens l with
          | Some (n, lang) => read_blocks (Some (n, lang, [])) ls'
          | None => match heading l with
                    | Some (k, t) => Heading k t :: read_blocks None ls'
                    | None => Plain l :: read_blocks None ls'
                    end
          end
      end
  end.
(** the lines of a text in which every line ends with a line break *)
Definition whole_lines (s : string) : list string := removelast (lines s).
Definition read_markdown (s : string) : list block := read_blocks None (whole_lines s).

(** ** Decimal numbers *)
Fixpoint decimal_from (acc : N) (s : string) : option N :=
  match s with
  | "" => Some acc
  | String c s' =>
      let n := N_of_ascii c in
      if N.leb 48 n && N.leb n 57 then decimal_from (10 * acc + (n - 48)) s' else None
  end.
Definition decimal (s : string) : option N := match s with "" => None | _ => decimal_from 0 s end.
Inductive denotes : string -> Z -> Prop :=
| den_plain : forall s n, decimal s = Some n -> denotes s (Z.of_N n)
| den_plus : forall s n, decimal s = Some n -> denotes ("+" ++ s) (Z.of_N n)
| den_minus : forall s n, decimal s = Some n -> denotes ("-" ++ s) (- Z.of_N n).
Definition int64 (z : Z) : Prop := (- 2 ^ 63 <= z < 2 ^ 63)%Z.
