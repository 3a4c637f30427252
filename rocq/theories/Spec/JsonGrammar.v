(** JSON texts as RFC 8259 describes them, and the values they stand for. Nothing here looks at the
    tool's code.

    RFC 8259 leaves open what a reader makes of a \u escape that is half of a surrogate pair and of
    bytes that are not UTF-8; encoding/json documents for both (func Unmarshal): "Instead, they are
    replaced by the Unicode replacement character U+FFFD." *)
From Coq Require Import String Ascii List NArith.
From Verif.Model Require Import Json.
From Verif.Spec Require Import Text JsonSpec.
Import ListNotations.
Local Open Scope string_scope.

(** section 2: ws *)
Definition blanks (s : string) : Prop := forall c, char_in c s -> In c [" "; "009"; "010"; "013"]%char.

(** section 6: numbers *)
Inductive digits : string -> Prop :=
| one_digit c : byte 48 57 c -> digits (String c "")
| more_digits c d : byte 48 57 c -> digits d -> digits (String c d).
Inductive int_part : string -> Prop :=
| int_zero : int_part "0"
| int_one c : byte 49 57 c -> int_part (String c "")
| int_more c d : byte 49 57 c -> digits d -> int_part (String c d).
Inductive frac_part : string -> Prop :=
| no_frac : frac_part ""
| frac d : digits d -> frac_part ("." ++ d).
Inductive exp_part : string -> Prop :=
| no_exp : exp_part ""
| exp e g d : In e ["e"; "E"] -> In g [""; "+"; "-"] -> digits d -> exp_part (e ++ g ++ d).
Definition number (s : string) : Prop :=
  exists m i f e, s = m ++ i ++ f ++ e /\ (m = "" \/ m = "-") /\ int_part i /\ frac_part f /\ exp_part e.

(** section 7: strings. Four hexadecimal digits *)
Inductive hex_digit : ascii -> N -> Prop :=
| hex_09 c : byte 48 57 c -> hex_digit c (N_of_ascii c - 48)
| hex_af c : byte 97 102 c -> hex_digit c (N_of_ascii c - 97 + 10)
| hex_AF c : byte 65 70 c -> hex_digit c (N_of_ascii c - 65 + 10).
Inductive hex4 : string -> N -> Prop :=
| four a b c d i j k l : hex_digit a i -> hex_digit b j -> hex_digit c k -> hex_digit d l ->
    hex4 (String a (String b (String c (String d "")))) (4096 * i + 256 * j + 16 * k + l).

(** RFC 3629, section 3: the number of a character *)
Definition bits (c : ascii) (base : N) : N := N_of_ascii c - base.
Definition code_point (x : string) : N :=
  match x with
  | String a "" => N_of_ascii a
  | String a (String b "") => bits a 192 * 64 + bits b 128
  | String a (String b (String c "")) => (bits a 224 * 64 + bits b 128) * 64 + bits c 128
  | String a (String b (String c (String d ""))) =>
      ((bits a 240 * 64 + bits b 128) * 64 + bits c 128) * 64 + bits d 128
  | _ => 0
  end.

(** the surrogates of UTF-16 *)
Definition high (n : N) : Prop := (55296 <= n < 56320)%N.
Definition low (n : N) : Prop := (56320 <= n < 57344)%N.
Definition low_follows (s : string) : Prop := exists h n r, s = "\u" ++ h ++ r /\ hex4 h n /\ low n.

Definition short_escapes : list (string * string) :=
  [("""", """"); ("\", "\"); ("/", "/"); ("b", String "008" ""); ("f", String "012" ""); ("n", String "010" "");
   ("r", String "013" ""); ("t", String "009" "")].

(** the text between the quotes, and the string it stands for *)
Inductive chars : string -> string -> Prop :=
| ch_end : chars "" ""
| ch_plain x s v : character x -> (forall c, x = String c "" -> (32 <= N_of_ascii c)%N /\ c <> """"%char /\ c <> "\"%char) ->
    chars s v -> chars (x ++ s) (x ++ v)
| ch_short e x s v : In (e, x) short_escapes -> chars s v -> chars ("\" ++ e ++ s) (x ++ v)
| ch_unicode h n x s v : hex4 h n -> ~ high n -> ~ low n -> character x -> code_point x = n ->
    chars s v -> chars ("\u" ++ h ++ s) (x ++ v)
| ch_pair h n h' n' x s v : hex4 h n -> high n -> hex4 h' n' -> low n' -> character x ->
    code_point x = ((n - 55296) * 1024 + (n' - 56320) + 65536)%N ->
    chars s v -> chars ("\u" ++ h ++ "\u" ++ h' ++ s) (x ++ v)
| ch_half h n s v : hex4 h n -> high n /\ ~ low_follows s \/ low n ->
    chars s v -> chars ("\u" ++ h ++ s) (replacement_character ++ v)
| ch_no_utf8 a s v : (128 <= N_of_ascii a)%N -> (forall x r, character x -> String a s <> x ++ r) ->
    chars s v -> chars (String a s) (replacement_character ++ v).

(** sections 3 to 5: values, with the elements of arrays and the members of objects *)
Inductive value : string -> json -> Prop :=
| v_null : value "null" JNull
| v_true : value "true" (JBool true)
| v_false : value "false" (JBool false)
| v_number s : number s -> value s (JNum s)
| v_string s v : chars s v -> value ("""" ++ s ++ """") (JStr v)
| v_empty_array a : blanks a -> value ("[" ++ a ++ "]") (JArr [])
| v_array s l : elements s l -> value ("[" ++ s ++ "]") (JArr l)
| v_empty_object a : blanks a -> value ("{" ++ a ++ "}") (JObj [])
| v_object s l : members s l -> value ("{" ++ s ++ "}") (JObj l)
with elements : string -> list json -> Prop :=
| e_last a s b j : blanks a -> value s j -> blanks b -> elements (a ++ s ++ b) [j]
| e_more a s b j s' l : blanks a -> value s j -> blanks b -> elements s' l -> elements (a ++ s ++ b ++ "," ++ s') (j :: l)
with members : string -> list (string * json) -> Prop :=
| m_last a k kv b c s d j : blanks a -> chars k kv -> blanks b -> blanks c -> value s j -> blanks d ->
    members (a ++ """" ++ k ++ """" ++ b ++ ":" ++ c ++ s ++ d) [(kv, j)]
| m_more a k kv b c s d j s' l : blanks a -> chars k kv -> blanks b -> blanks c -> value s j -> blanks d -> members s' l ->
    members (a ++ """" ++ k ++ """" ++ b ++ ":" ++ c ++ s ++ d ++ "," ++ s') ((kv, j) :: l).

(** section 2: JSON-text *)
Definition json_text (text : string) (j : json) : Prop :=
  exists a s b, text = a ++ s ++ b /\ blanks a /\ value s j /\ blanks b.

(** arrays and objects at most [n] deep inside each other *)
Inductive within : N -> json -> Prop :=
| w_flat n j : (forall l, j <> JArr l) -> (forall l, j <> JObj l) -> within n j
| w_array n l : (forall j, In j l -> within n j) -> within (N.succ n) (JArr l)
| w_object n l : (forall k j, In (k, j) l -> within n j) -> within (N.succ n) (JObj l).
