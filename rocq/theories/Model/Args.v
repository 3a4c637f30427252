(** Model of the command line of /repo/main.go:160-192: how arguments and environment variables become a command
    with the values of its flags.

    This is the work of urfave/cli (v2.3.0, /repo/go.mod) and of the package flag of Go, which are not part of
    /repo; they are modelled from their sources as far as the application uses them: no global flags of its own,
    no default values, no short option handling, no hooks. Not modelled: the texts shown; what happens when a shell
    asks for completions; the version flag behind the first word of a command of two words. *)
From Coq Require Import String Ascii List Bool Arith.
From Verif.Model Require Import GoString Cli.
Import ListNotations.
Local Open Scope string_scope.

(** strconv.ParseBool *)
Definition parse_bool (s : string) : option bool :=
  if str_in s ["1"; "t"; "T"; "TRUE"; "true"; "True"] then Some true
  else if str_in s ["0"; "f"; "F"; "FALSE"; "false"; "False"] then Some false
  else None.

(** urfave/cli FlagNames *)
Definition flag_names (f : flag) : list string := fl_name f :: fl_aliases f.

(** urfave/cli HelpFlag, VersionFlag; they have no environment variables *)
Definition help_flag : flag := bool_flag "help" ["h"] "".
Definition version_flag : flag := bool_flag "version" ["v"] "".

(** ** The package flag *)

(** what an argument is: not a flag; "--"; a dash without a name; a name, perhaps with "=" and a value *)
Inductive argument := Plain | Stop | Malformed | Named (name : string) (value : option string).

(** flag.go parseOne, the loop that looks for "="; "=" cannot be first *)
Fixpoint cut_value (s : string) : string * option string :=
  match s with
  | EmptyString => ("", None)
  | String c r =>
      if Ascii.eqb c "=" then ("", Some r)
      else let '(n, v) := cut_value r in (String c n, v)
  end.

(** flag.go parseOne: what follows the dashes *)
Definition read_name (s : string) : argument :=
  match s with
  | EmptyString => Malformed
  | String c _ =>
      if Ascii.eqb c "-" || Ascii.eqb c "=" then Malformed
      else let '(n, v) := cut_value s in Named n v
  end.

(** flag.go parseOne, up to the lookup of the name *)
Definition read_argument (s : string) : argument :=
  match s with
  | EmptyString => Plain
  | String c r =>
      if Ascii.eqb c "-" then
        match r with
        | EmptyString => Plain
        | String d t =>
            if Ascii.eqb d "-" then match t with EmptyString => Stop | _ => read_name t end
            else read_name r
        end
      else Plain
  end.

(** FlagSet.formal *)
Definition lookup_flag (fl : list flag) (name : string) : option flag :=
  find (fun f => str_in name (flag_names f)) fl.

Definition add_given (e : string * string) (r : option (list (string * string) * list string)) :=
  match r with Some (es, rest) => Some (e :: es, rest) | None => None end.

(** FlagSet.Parse: the names given with their values, and the arguments that are left; [None] for an error *)
Fixpoint parse_flags (fl : list flag) (args : list string) : option (list (string * string) * list string) :=
  match args with
  | [] => Some ([], [])
  | a :: rest =>
      match read_argument a with
      | Plain => Some ([], args)
      | Stop => Some ([], rest)
      | Malformed => None
      | Named n value =>
          match lookup_flag fl n with
          | None => None
          | Some f =>
              if fl_bool f then
                let x := match value with Some x => x | None => "true" end in
                match parse_bool x with
                | None => None
                | Some _ => add_given (n, x) (parse_flags fl rest)
                end
              else
                match value with
                | Some x => add_given (n, x) (parse_flags fl rest)
                | None => match rest with
                          | [] => None
                          | x :: rest' => add_given (n, x) (parse_flags fl rest')
                          end
                end
          end
      end
  end.

(** ** urfave/cli *)

(** normalizeFlags: more than one of the names of a flag was used *)
Definition two_forms (fl : list flag) (given : list (string * string)) : bool :=
  existsb (fun f => Nat.ltb 1 (List.length (filter (fun n => str_in n (map fst given)) (flag_names f)))) fl.

(** the value of a flag; of a name used twice the last value counts *)
Definition given_value (f : flag) (given : list (string * string)) : option string :=
  fold_left (fun r e => let '(n, x) := e in if str_in n (flag_names f) then Some x else r) given None.

(** Context.Bool of a flag without a value in the environment *)
Definition switched_on (f : flag) (given : list (string * string)) : bool :=
  match given_value f given with
  | Some x => match parse_bool x with Some b => b | None => false end
  | None => false
  end.

(** the value of each environment variable, if it is set *)
Definition environment := string -> option string.

(** StringFlag.Apply, BoolFlag.Apply: [None] for an error, else the value if the variable has one *)
Definition environment_value (env : environment) (f : flag) : option (option string) :=
  match env (fl_env f) with
  | None => Some None
  | Some x =>
      if fl_bool f then
        if String.eqb x "" then Some None
        else match parse_bool x with Some _ => Some (Some x) | None => None end
      else Some (Some x)
  end.

Definition environment_fails (env : environment) (f : flag) : bool :=
  match environment_value env f with None => true | Some _ => false end.

(** what the application does: run a command with values for its flags; show a help text or the version and end
    without an error; end with an error; complete words for a shell; the model does not say *)
Inductive request :=
| Runs (c : command) (v : values)
| Shows
| Refuses
| Completes
| Unclear.

(** the values of the flags of a command: those given, else those of the environment *)
Definition flag_values (env : environment) (c : command) (given : list (string * string)) : values := fun name =>
  match find (fun f => String.eqb (fl_name f) name) (command_flags c) with
  | None => None
  | Some f =>
      match given_value f given with
      | Some x => Some x
      | None => match environment_value env f with Some r => r | None => None end
      end
  end.

(** Command.Run of a command without subcommands. The flags are created, with the values of the environment, before
    the arguments are parsed. That the required flags are given is checked last, which is in [run]. *)
Definition command_request (env : environment) (c : command) (args : list string) : request :=
  let fl := (command_flags c ++ [help_flag])%list in
  if existsb (environment_fails env) (command_flags c) then Refuses
  else match parse_flags fl args with
       | None => Refuses
       | Some (given, _) =>
           if two_forms fl given then Refuses
           else if switched_on help_flag given then Shows
           else Runs c (flag_values env c given)
       end.

(** ShowCommandHelp: an error for a name that is not known, but not for the empty name *)
Definition show_help (known : list string) (name : string) : request :=
  if String.eqb name "" || str_in name known then Shows else Refuses.

(** Command.Run of the command "help", known as "h", that urfave/cli adds at both levels *)
Definition help_words : list string := ["help"; "h"].
Definition help_request (known : list string) (args : list string) : request :=
  match parse_flags [help_flag] args with
  | None => Refuses
  | Some (given, rest) =>
      if two_forms [help_flag] given then Refuses
      else if switched_on help_flag given then Shows
      else match rest with [] => Shows | name :: _ => show_help known name end
  end.

(** main.go:30-158 *)
Definition known_commands : list command :=
  [Init; ImportMysql; ImportOjson; ImportStaruml; ImportXlsx; ExportDbml; ExportQuickdbd; ExportMysql; ExportXlsx;
   GenerateGorm; GenerateGraphql; GenerateKt; GenerateLiquibase; GeneratePlantuml; GeneratePb; GenerateSqlalchemy;
   DiffFlyway; DiffLiquibase; DiffMd].

Definition words_are (l : list string) (c : command) : bool :=
  if list_eq_dec string_dec (command_words c) l then true else false.
Definition find_command (l : list string) : option command := find (words_are l) known_commands.

(** the second words of the commands with a first word, and the first words *)
Definition second_words (w1 : string) : list string :=
  flat_map (fun c => match command_words c with [a; b] => if String.eqb a w1 then [b] else [] | _ => [] end) known_commands.
Definition first_words : list string := ["diff"; "export"; "generate"; "import"; "init"].

(** App.RunAsSubcommand, for a command with subcommands *)
Definition group_request (env : environment) (w1 : string) (args : list string) : request :=
  let fl := [help_flag; version_flag] in
  match parse_flags fl args with
  | None => Refuses
  | Some (given, rest) =>
      if existsb (fun n => str_in n (flag_names version_flag)) (map fst given) then Unclear
      else if two_forms fl given then Refuses
      else if switched_on help_flag given then Shows
      else match rest with
           | [] => Shows
           | w2 :: args' =>
               match find_command [w1; w2] with
               | Some c => command_request env c args'
               | None =>
                   if str_in w2 help_words then help_request (second_words w1 ++ help_words) args'
                   else show_help (second_words w1 ++ help_words) w2
               end
           end
  end.

(** checkShellCompleteFlag; main.go:162 EnableBashCompletion *)
Definition completion_asked (args : list string) : bool := String.eqb (last args "") "--generate-bash-completion".

(** App.RunContext, with the arguments behind the name of the program *)
Definition line_request (env : environment) (args : list string) : request :=
  let fl := [help_flag; version_flag] in
  if completion_asked args then Completes
  else match parse_flags fl args with
       | None => Refuses
       | Some (given, rest) =>
           if two_forms fl given then Refuses
           else if switched_on help_flag given then Shows
           else if switched_on version_flag given then Shows
           else match rest with
                | [] => Shows
                | w1 :: args' =>
                    match find_command [w1] with
                    | Some c => command_request env c args'
                    | None =>
                        if str_in w1 first_words then group_request env w1 args'
                        else if str_in w1 help_words then help_request (first_words ++ help_words) args'
                        else show_help (first_words ++ help_words) w1
                    end
                end
       end.

(** main.go:160-192: an error is logged, and the program ends with an exit code *)
Definition run_line (w : world) (fs : files) (env : environment) (args : list string) : outcome :=
  match line_request env args with
  | Runs c v => run w fs c v
  | Shows => ([], Done)
  | Refuses => failed
  | Completes | Unclear => not_modelled
  end.
