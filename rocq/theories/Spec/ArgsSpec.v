(** Command lines, independent of how they are parsed: how options are spelled, which command a command line asks for
    and with which values (C124, C125). *)
From Coq Require Import String Ascii List Bool.
From Verif.Model Require Import Cli.
Import ListNotations.
Local Open Scope string_scope.

(** ** Options *)
Definition names (f : flag) : list string := fl_name f :: fl_aliases f.

Definition yes_words : list string := ["1"; "t"; "T"; "TRUE"; "true"; "True"].
Definition no_words : list string := ["0"; "f"; "F"; "FALSE"; "false"; "False"].
Definition boolean (x : string) : Prop := In x yes_words \/ In x no_words.

(** an option under one of its names, after one or two dashes: with its value behind "=" or in the next argument,
    whatever the value is; a switch stands alone or has its value behind "=" *)
Inductive spelled (f : flag) (n x : string) : list string -> Prop :=
| joined d : In d ["-"; "--"] -> In n (names f) -> (fl_bool f = true -> boolean x) -> spelled f n x [d ++ n ++ "=" ++ x]
| apart d : In d ["-"; "--"] -> In n (names f) -> fl_bool f = false -> spelled f n x [d ++ n; x]
| alone d : In d ["-"; "--"] -> In n (names f) -> fl_bool f = true -> x = "true" -> spelled f n x [d ++ n].

(** options one after the other *)
Inductive spelled_all (fl : list flag) : list (flag * string * string) -> list string -> Prop :=
| no_more : spelled_all fl [] []
| one_more f n x es a b : In f fl -> spelled f n x a -> spelled_all fl es b ->
    spelled_all fl ((f, n, x) :: es) (a ++ b)%list.

(** the options end at an argument that is not an option, which a lone dash is not either, or at "--" *)
Definition no_option (a : string) : Prop := forall r, a = String "-" r -> r = "".
Definition ends_with (rest left : list string) : Prop :=
  rest = "--" :: left \/ (rest = left /\ forall a l, left = a :: l -> no_option a).

(** no option under two of its names *)
Definition one_name (es : list (flag * string * string)) : Prop :=
  forall f n x n' x', In (f, n, x) es -> In (f, n', x') es -> n = n'.

(** the arguments begin with the options [es]; [left] is what follows *)
Definition begins (fl : list flag) (args : list string) (es : list (flag * string * string)) (left : list string) : Prop :=
  exists a r, args = (a ++ r)%list /\ spelled_all fl es a /\ ends_with r left /\ one_name es.

(** the value given to an option: the last one *)
Definition given (f : flag) (es : list (flag * string * string)) (x : string) : Prop :=
  exists a n b, es = (a ++ (f, n, x) :: b)%list /\ forall n' x', ~ In (f, n', x') b.
Definition not_given (f : flag) (es : list (flag * string * string)) : Prop := forall n x, ~ In (f, n, x) es.

(** a switch that is not given, or given with "no" *)
Definition off (f : flag) (es : list (flag * string * string)) : Prop := forall x, given f es x -> In x no_words.

(** ** The options every program of urfave/cli has *)
Definition help : flag := mkFlag "help" ["h"] "" false true.
Definition version : flag := mkFlag "version" ["v"] "" false true.

(** ** Values *)

(** the value of an option: the one given, else the one of the environment variable if it is set; for a switch an
    empty variable does not count *)
Definition value_is (env : string -> option string) (es : list (flag * string * string)) (f : flag) (r : option string) : Prop :=
  (forall x, given f es x -> r = Some x) /\
  (not_given f es ->
     (env (fl_env f) = None -> r = None) /\
     (forall x, env (fl_env f) = Some x -> r = if fl_bool f then if string_dec x "" then None else Some x else Some x)).

(** the environment has a boolean for every switch, or nothing *)
Definition sensible (env : string -> option string) (c : command) : Prop :=
  forall f x, In f (command_flags c) -> fl_bool f = true -> env (fl_env f) = Some x -> x = "" \/ boolean x.

(** ** Command lines *)
Definition completion (args : list string) : Prop := exists a, args = (a ++ ["--generate-bash-completion"])%list.

(** what follows the words of a command *)
Definition asks_options (env : string -> option string) (c : command) (args : list string) (v : values) : Prop :=
  exists es left, begins (command_flags c ++ [help]) args es left /\ off help es /\ sensible env c /\
    (forall f, In f (command_flags c) -> value_is env es f (v (fl_name f))) /\
    (forall n, ~ In n (map fl_name (command_flags c)) -> v n = None).

(** the words of the command, with switched off options of the program before them, and options behind *)
Definition asks (env : string -> option string) (args : list string) (c : command) (v : values) : Prop :=
  ~ completion args /\
  exists es w1 args1, begins [help; version] args es (w1 :: args1) /\ off help es /\ off version es /\
    ((command_words c = [w1] /\ asks_options env c args1 v) \/
     exists w2 es2 args2, command_words c = [w1; w2] /\ begins [help] args1 es2 (w2 :: args2) /\ off help es2 /\
       asks_options env c args2 v).

(** the option "version" between the two words of a command, or behind the first word *)
Definition version_between (args : list string) : Prop :=
  exists es w1 args1 es2 a r left, begins [help; version] args es (w1 :: args1) /\ args1 = (a ++ r)%list /\
    spelled_all [help; version] es2 a /\ ends_with r left /\ exists n x, In (version, n, x) es2.

(** ** Mistakes *)

(** an argument that looks like an option of a name: dashes, the name, and perhaps "=" and anything *)
Definition looks_like (a n : string) : Prop :=
  exists d, In d ["-"; "--"] /\ (a = d ++ n \/ exists x, a = d ++ n ++ "=" ++ x).
Definition proper_name (n : string) : Prop :=
  n <> "" /\ (forall r, n <> String "-" r) /\ (forall a b, n <> a ++ "=" ++ b).

(** what is wrong with the arguments [bad] among the options of a command: an option it does not have; a switch with a
    value that is not boolean; an option without a value at the end *)
Inductive mistake (fl : list flag) : list string -> list string -> Prop :=
| unknown a n more : looks_like a n -> proper_name n -> (forall f, In f fl -> ~ In n (names f)) -> mistake fl [a] more
| not_boolean f n d x more : In f fl -> In n (names f) -> fl_bool f = true -> In d ["-"; "--"] -> ~ boolean x ->
    mistake fl [d ++ n ++ "=" ++ x] more
| no_value f n d : In f fl -> In n (names f) -> fl_bool f = false -> In d ["-"; "--"] -> mistake fl [d ++ n] [].
