(** The text of a JSON document: what encoding/json writes and what it reads.

    encoding/json is not part of /repo. It is modelled (as in Go 1.17, go.mod) because
    every command reads or writes octopus files through it: json.MarshalIndent(s, "", "  ")
    (table.go:165) and json.Unmarshal (table.go:177). *)
From Coq Require Import String Ascii List NArith Bool.
From Verif.Model Require Import GoString Util Octopus Json.
Import ListNotations.
Local Open Scope string_scope.

Definition byte_in (lo hi : N) (c : ascii) : bool :=
  N.leb lo (N_of_ascii c) && N.leb (N_of_ascii c) hi.

(** unicode/utf8 DecodeRuneInString: the number of bytes of the first rune; 0 when the
    string is empty or does not start with a well-formed rune *)
Definition rune_size (s : string) : nat :=
  match s with
  | String a r =>
      if byte_in 0 127 a then 1
      else match r with
      | String b r =>
          if byte_in 194 223 a then (if byte_in 128 191 b then 2 else 0)
          else match r with
          | String c r =>
              if byte_in 224 224 a then (if byte_in 160 191 b && byte_in 128 191 c then 3 else 0)
              else if byte_in 225 236 a || byte_in 238 239 a
              then (if byte_in 128 191 b && byte_in 128 191 c then 3 else 0)
              else if byte_in 237 237 a then (if byte_in 128 159 b && byte_in 128 191 c then 3 else 0)
              else match r with
              | String d _ =>
                  let tail := byte_in 128 191 c && byte_in 128 191 d in
                  if byte_in 240 240 a then (if byte_in 144 191 b && tail then 4 else 0)
                  else if byte_in 241 243 a then (if byte_in 128 191 b && tail then 4 else 0)
                  else if byte_in 244 244 a then (if byte_in 128 143 b && tail then 4 else 0)
                  else 0
              | EmptyString => 0
              end
          | EmptyString => 0
          end
      | EmptyString => 0
      end
  | EmptyString => 0
  end%nat.

Fixpoint string_take (n : nat) (s : string) : string :=
  match n, s with
  | S n', String c s' => String c (string_take n' s')
  | _, _ => EmptyString
  end.

Definition hex_digit (n : N) : ascii :=
  ascii_of_N (if N.ltb n 10 then 48 + n else 87 + n).

(** ** Writing *)

(** encode.go encodeState.string with escapeHTML: one byte below 128 *)
Definition put_ascii (c : ascii) : string :=
  let n := N_of_ascii c in
  if N.eqb n 34 then "\"""
  else if N.eqb n 92 then "\\"
  else if N.eqb n 10 then "\n"
  else if N.eqb n 13 then "\r"
  else if N.eqb n 9 then "\t"
  else if N.ltb n 32 || N.eqb n 60 || N.eqb n 62 || N.eqb n 38
  then "\u00" ++ String (hex_digit (n / 16)) (String (hex_digit (n mod 16)) "")
  else String c "".

(** the bytes of U+2028 and U+2029, which are escaped *)
Definition line_separator : string := String "226" (String "128" (String "168" "")).
Definition paragraph_separator : string := String "226" (String "128" (String "169" "")).

(** encodeState.string: rune by rune; a byte that starts no rune becomes U+FFFD.
    [n] bounds the number of steps *)
Fixpoint put_chars (n : nat) (s : string) : string :=
  match n, s with
  | S n', String c s' =>
      match rune_size s with
      | O => "\ufffd" ++ put_chars n' s'
      | 1%nat => put_ascii c ++ put_chars n' s'
      | k => let r := string_take k s in
             (if String.eqb r line_separator then "\u2028"
              else if String.eqb r paragraph_separator then "\u2029"
              else r) ++ put_chars n' (string_drop k s)
      end
  | _, _ => ""
  end.
Definition put_string (s : string) : string :=
  """" ++ put_chars (String.length s) s ++ """".

Definition newline_s : string := String "010" "".

(** Indent: every level two blanks deeper; nothing between the brackets of an empty
    array or object *)
Fixpoint put_value (ind : string) (j : json) : string :=
  match j with
  | JNull => "null"
  | JBool b => if b then "true" else "false"
  | JNum lit => lit
  | JStr s => put_string s
  | JArr [] => "[]"
  | JArr l =>
      let sep := newline_s ++ ind ++ "  " in
      "[" ++ sep ++ join ("," ++ sep) (map (put_value (ind ++ "  ")) l) ++ newline_s ++ ind ++ "]"
  | JObj [] => "{}"
  | JObj l =>
      let sep := newline_s ++ ind ++ "  " in
      "{" ++ sep ++
      join ("," ++ sep)
        (map (fun kv => let '(k, v) := kv in put_string k ++ ": " ++ put_value (ind ++ "  ") v) l) ++
      newline_s ++ ind ++ "}"
  end.

(** table.go:161-166 ToJson, as the bytes it returns *)
Definition to_text (sortf : list table -> list table) (s : schema) : option string :=
  option_map (put_value "") (to_json sortf s).

(** ** Reading *)

(** scanner.go isSpace *)
Definition json_space (c : ascii) : bool :=
  let n := N_of_ascii c in N.eqb n 32 || N.eqb n 9 || N.eqb n 13 || N.eqb n 10.
Fixpoint skip_space (s : string) : string :=
  match s with
  | String c s' => if json_space c then skip_space s' else s
  | EmptyString => EmptyString
  end.

Definition hex_value (c : ascii) : option N :=
  let n := N_of_ascii c in
  if byte_in 48 57 c then Some (n - 48)%N
  else if byte_in 97 102 c then Some (n - 87)%N
  else if byte_in 65 70 c then Some (n - 55)%N
  else None.

(** four hexadecimal digits *)
Definition get_hex4 (s : string) : option (N * string) :=
  match s with
  | String a (String b (String c (String d r))) =>
      match hex_value a, hex_value b, hex_value c, hex_value d with
      | Some a, Some b, Some c, Some d => Some (((a * 16 + b) * 16 + c) * 16 + d, r)%N
      | _, _, _, _ => None
      end
  | _ => None
  end.

(** utf8.EncodeRune for a code point that is not a surrogate *)
Definition put_rune (n : N) : string :=
  if N.ltb n 128 then String (ascii_of_N n) ""
  else if N.ltb n 2048
  then String (ascii_of_N (192 + n / 64)) (String (ascii_of_N (128 + n mod 64)) "")
  else if N.ltb n 65536
  then String (ascii_of_N (224 + n / 4096))
         (String (ascii_of_N (128 + n / 64 mod 64)) (String (ascii_of_N (128 + n mod 64)) ""))
  else String (ascii_of_N (240 + n / 262144))
         (String (ascii_of_N (128 + n / 4096 mod 64))
            (String (ascii_of_N (128 + n / 64 mod 64)) (String (ascii_of_N (128 + n mod 64)) ""))).

Definition replacement : string := put_rune 65533.

(** utf16.IsSurrogate, utf16.DecodeRune *)
Definition surrogate (n : N) : bool := N.leb 55296 n && N.ltb n 57344.
Definition pair_rune (a b : N) : option N :=
  if (N.leb 55296 a && N.ltb a 56320) && (N.leb 56320 b && N.ltb b 57344)
  then Some ((a - 55296) * 1024 + (b - 56320) + 65536)%N else None.

(** the code after [\u], decode.go unquoteBytes *)
Definition get_unicode (s : string) : option (string * string) :=
  match get_hex4 s with
  | None => None
  | Some (a, r) =>
      if surrogate a then
        match r with
        | String x (String y r') =>
            if Ascii.eqb x "\" && Ascii.eqb y "u" then
              match get_hex4 r' with
              | None => None
              | Some (b, r'') =>
                  match pair_rune a b with
                  | Some n => Some (put_rune n, r'')
                  | None => Some (replacement, r)
                  end
              end
            else Some (replacement, r)
        | _ => Some (replacement, r)
        end
      else Some (put_rune a, r)
  end.

(** after a backslash *)
Definition get_escape (s : string) : option (string * string) :=
  match s with
  | String c r =>
      if Ascii.eqb c """" || Ascii.eqb c "\" || Ascii.eqb c "/" then Some (String c "", r)
      else if Ascii.eqb c "b" then Some (String "008" "", r)
      else if Ascii.eqb c "f" then Some (String "012" "", r)
      else if Ascii.eqb c "n" then Some (String "010" "", r)
      else if Ascii.eqb c "r" then Some (String "013" "", r)
      else if Ascii.eqb c "t" then Some (String "009" "", r)
      else if Ascii.eqb c "u" then get_unicode r
      else None
  | EmptyString => None
  end.

(** the characters of a string and the text after the closing quote *)
Fixpoint get_chars (n : nat) (s : string) : option (string * string) :=
  match n, s with
  | S n', String c s' =>
      if Ascii.eqb c """" then Some ("", s')
      else if N.ltb (N_of_ascii c) 32 then None
      else
        let step := if Ascii.eqb c "\" then get_escape s'
                    else match rune_size s with
                         | O => Some (replacement, s')
                         | k => Some (string_take k s, string_drop k s)
                         end in
        match step with
        | None => None
        | Some (x, r) => match get_chars n' r with
                         | Some (y, r') => Some (x ++ y, r')
                         | None => None
                         end
        end
  | _, _ => None
  end.

Fixpoint get_digits (s : string) : string * string :=
  match s with
  | String c s' => if is_digit c then let '(a, b) := get_digits s' in (String c a, b) else ("", s)
  | EmptyString => ("", "")
  end.

(** one or more digits *)
Definition get_digits1 (s : string) : option (string * string) :=
  match get_digits s with
  | (EmptyString, _) => None
  | p => Some p
  end.

(** the fraction and the exponent of a number, both optional *)
Definition get_fraction (s : string) : option (string * string) :=
  match s with
  | String c r =>
      if Ascii.eqb c "." then
        match get_digits1 r with Some (d, r') => Some (String "." d, r') | None => None end
      else Some ("", s)
  | EmptyString => Some ("", "")
  end.
Definition get_exponent (s : string) : option (string * string) :=
  match s with
  | String c r =>
      if Ascii.eqb c "e" || Ascii.eqb c "E" then
        match r with
        | String g r' =>
            if Ascii.eqb g "+" || Ascii.eqb g "-" then
              match get_digits1 r' with Some (d, r'') => Some (String c (String g d), r'') | None => None end
            else match get_digits1 r with Some (d, r'') => Some (String c d, r'') | None => None end
        | EmptyString => None
        end
      else Some ("", s)
  | EmptyString => Some ("", "")
  end.
(** no leading zero *)
Definition get_integer (s : string) : option (string * string) :=
  match s with
  | String c r => if Ascii.eqb c "0" then Some ("0", r) else get_digits1 s
  | EmptyString => None
  end.
Definition get_number (s : string) : option (string * string) :=
  let '(sign, s1) := match s with
                     | String c r => if Ascii.eqb c "-" then ("-", r) else ("", s)
                     | EmptyString => ("", "")
                     end in
  match get_integer s1 with
  | None => None
  | Some (i, s2) =>
      match get_fraction s2 with
      | None => None
      | Some (f, s3) =>
          match get_exponent s3 with
          | None => None
          | Some (e, s4) => Some (sign ++ i ++ f ++ e, s4)
          end
      end
  end.

Definition get_word (w s : string) : option string :=
  if has_prefix w s then Some (string_drop (String.length w) s) else None.

(** the next character after white space *)
Definition next_is (c : ascii) (s : string) : option string :=
  match skip_space s with
  | String d r => if Ascii.eqb c d then Some r else None
  | EmptyString => None
  end.

(** scanner.go and decode.go: a value and the text after it. [n] bounds the steps.
    [get_elements]: behind "[" or ",", at least one element. *)
Fixpoint get_value (n : nat) (s : string) : option (json * string) :=
  match n with
  | O => None
  | S n' =>
      match skip_space s with
      | EmptyString => None
      | String c r =>
          if Ascii.eqb c """" then
            match get_chars (String.length r) r with
            | Some (x, r') => Some (JStr x, r')
            | None => None
            end
          else if Ascii.eqb c "[" then
            match next_is "]" r with
            | Some r' => Some (JArr [], r')
            | None => match get_elements n' r with
                      | Some (l, r') => Some (JArr l, r')
                      | None => None
                      end
            end
          else if Ascii.eqb c "{" then
            match next_is "}" r with
            | Some r' => Some (JObj [], r')
            | None => match get_members n' r with
                      | Some (l, r') => Some (JObj l, r')
                      | None => None
                      end
            end
          else if Ascii.eqb c "n" then option_map (fun r' => (JNull, r')) (get_word "null" (String c r))
          else if Ascii.eqb c "t" then option_map (fun r' => (JBool true, r')) (get_word "true" (String c r))
          else if Ascii.eqb c "f" then option_map (fun r' => (JBool false, r')) (get_word "false" (String c r))
          else option_map (fun p => (JNum (fst p), snd p)) (get_number (String c r))
      end
  end
with get_elements (n : nat) (s : string) : option (list json * string) :=
  match n with
  | O => None
  | S n' =>
      match get_value n' s with
      | None => None
      | Some (j, r) =>
          match next_is "," r with
          | Some r' => match get_elements n' r' with
                       | Some (l, r'') => Some (j :: l, r'')
                       | None => None
                       end
          | None => option_map (fun r' => ([j], r')) (next_is "]" r)
          end
      end
  end
with get_members (n : nat) (s : string) : option (list (string * json) * string) :=
  match n with
  | O => None
  | S n' =>
      match next_is """" s with
      | None => None
      | Some s1 =>
          match get_chars (String.length s1) s1 with
          | None => None
          | Some (k, s2) =>
              match next_is ":" s2 with
              | None => None
              | Some s3 =>
                  match get_value n' s3 with
                  | None => None
                  | Some (j, r) =>
                      match next_is "," r with
                      | Some r' => match get_members n' r' with
                                   | Some (l, r'') => Some ((k, j) :: l, r'')
                                   | None => None
                                   end
                      | None => option_map (fun r' => ([(k, j)], r')) (next_is "}" r)
                      end
                  end
              end
          end
      end
  end.

(** scanner.go pushParseState: arrays and objects inside each other *)
Fixpoint nesting (j : json) : N :=
  match j with
  | JArr l => N.succ (fold_right N.max 0%N (map nesting l))
  | JObj l => N.succ (fold_right N.max 0%N (map (fun kv => let '(_, v) := kv in nesting v) l))
  | _ => 0
  end.
(** scanner.go maxNestingDepth *)
Definition max_nesting : N := 10000.

(** a whole document: nothing but white space after the value *)
Definition read_text (s : string) : option json :=
  match get_value (String.length s) s with
  | Some (j, r) => match skip_space r with
                   | EmptyString => if N.leb (nesting j) max_nesting then Some j else None
                   | _ => None
                   end
  | None => None
  end.

(** table.go:176-178 FromJson on bytes *)
Definition from_text (s : string) : option schema :=
  match read_text s with Some j => from_json j | None => None end.
