(** A reader for the part of MySQL's CREATE TABLE syntax that matters here, independent of the
    exporter. It stands for MySQL (and for pingcap's parser, which importer.go uses): what the
    text means as a list of statements. [None] is a syntax error or an unsupported construct.

    Sources: the MySQL reference manual for the syntax, /repo/format/mysql/importer_test.go for
    what the parser delivers (function names, varbinary/geometry/point not accepted). *)
From Coq Require Import String Ascii List NArith ZArith Bool.
From Verif.Model Require Import GoString Mysql.
Import ListNotations.
Local Open Scope string_scope.

(** ** Tokens *)
Inductive tok := TWord (s : string) | TName (s : string) | TText (s : string) | TSym (c : ascii).

(** characters of unquoted identifiers, keywords and numbers *)
Definition is_word_char (c : ascii) : bool :=
  is_letter c || is_digit c || Ascii.eqb c "_" || Ascii.eqb c "$" || Nat.leb 128 (nat_of_ascii c).

Definition is_sym (c : ascii) : bool :=
  Ascii.eqb c "(" || Ascii.eqb c ")" || Ascii.eqb c "," || Ascii.eqb c ";" || Ascii.eqb c "." || Ascii.eqb c "-".

Definition backslash : ascii := ascii_of_nat 92.

(** backslash escapes in a string *)
Definition unescape (c : ascii) : string :=
  if Ascii.eqb c "n" then String (ascii_of_nat 10) ""
  else if Ascii.eqb c "t" then String (ascii_of_nat 9) ""
  else if Ascii.eqb c "r" then String (ascii_of_nat 13) ""
  else if Ascii.eqb c "0" then String (ascii_of_nat 0) ""
  else if Ascii.eqb c "b" then String (ascii_of_nat 8) ""
  else if Ascii.eqb c "Z" then String (ascii_of_nat 26) ""
  else if Ascii.eqb c "%" || Ascii.eqb c "_" then String backslash (String c "")
  else String c "".

Inductive lex_state :=
| LStart | LWord (acc : string) | LName (acc : string) | LNameQ (acc : string)
| LText (acc : string) | LTextQ (acc : string) | LTextE (acc : string).

Definition emit_tok (t : tok) (r : option (list tok)) : option (list tok) := option_map (cons t) r.

Fixpoint lex (st : lex_state) (s : string) : option (list tok) :=
  match s with
  | EmptyString =>
      match st with
      | LStart => Some []
      | LWord a => Some [TWord a]
      | LNameQ a => Some [TName a]
      | LTextQ a => Some [TText a]
      | LName _ | LText _ | LTextE _ => None
      end
  | String c s' =>
      let start := fun _ : unit =>
        if is_space c then lex LStart s'
        else if is_word_char c then lex (LWord (String c "")) s'
        else if Ascii.eqb c "`" then lex (LName "") s'
        else if Ascii.eqb c "'" then lex (LText "") s'
        else if is_sym c then emit_tok (TSym c) (lex LStart s')
        else None in
      match st with
      | LStart => start tt
      | LWord a => if is_word_char c then lex (LWord (a ++ String c "")) s' else emit_tok (TWord a) (start tt)
      | LName a => if Ascii.eqb c "`" then lex (LNameQ a) s' else lex (LName (a ++ String c "")) s'
      | LNameQ a => if Ascii.eqb c "`" then lex (LName (a ++ "`")) s' else emit_tok (TName a) (start tt)
      | LText a =>
          if Ascii.eqb c "'" then lex (LTextQ a) s'
          else if Ascii.eqb c backslash then lex (LTextE a) s'
          else lex (LText (a ++ String c "")) s'
      | LTextQ a => if Ascii.eqb c "'" then lex (LText (a ++ "'")) s' else emit_tok (TText a) (start tt)
      | LTextE a => lex (LText (a ++ unescape c)) s'
      end
  end.

Definition lex_sql (s : string) : option (list tok) := lex LStart s.

(** ** Structure *)

(** statements end with ';' *)
Fixpoint split_stmts (ts : list tok) : list (list tok) :=
  match ts with
  | [] => [[]]
  | TSym c :: r =>
      if Ascii.eqb c ";" then [] :: split_stmts r
      else match split_stmts r with [] => [[TSym c]] | x :: xs => (TSym c :: x) :: xs end
  | t :: r => match split_stmts r with [] => [[t]] | x :: xs => (t :: x) :: xs end
  end.

(** the comma separated parts up to the closing parenthesis, and what follows it *)
Fixpoint split_parts (depth : nat) (ts : list tok) : option (list (list tok) * list tok) :=
  let add t r := match r with
                 | Some (x :: xs, rest) => Some ((t :: x) :: xs, rest)
                 | _ => None
                 end in
  match ts with
  | [] => None
  | TSym c :: r =>
      if Ascii.eqb c ")" then
        match depth with
        | O => Some ([[]], r)
        | S d => add (TSym c) (split_parts d r)
        end
      else if Ascii.eqb c "(" then add (TSym c) (split_parts (S depth) r)
      else if Ascii.eqb c "," && Nat.eqb depth 0 then
        option_map (fun p => ([] :: fst p, snd p)) (split_parts depth r)
      else add (TSym c) (split_parts depth r)
  | t :: r => add t (split_parts depth r)
  end.

(** a keyword, in any case *)
Definition kw (w k : string) : bool := String.eqb (to_lower w) k.

Definition is_digits (w : string) : bool := string_forallb is_digit w && negb (String.eqb w "").

Section Reader.
  (** reserved words of the server, in lower case *)
  Variable reserved : string -> bool.

  Definition grammar_words : list string :=
    ["primary"; "unique"; "index"; "key"; "create"; "table"; "not"; "null"; "default"; "on"; "if"; "exists"].

  Definition is_ident (w : string) : bool :=
    match w with
    | EmptyString => false
    | String c _ => negb (is_digit c) && negb (str_in (to_lower w) grammar_words) && negb (reserved (to_lower w))
    end.

  Definition read_name (t : tok) : option string :=
    match t with
    | TWord w => if is_ident w then Some w else None
    | TName n => if String.eqb n "" then None else Some n
    | _ => None
    end.

  (** ** Types *)
  Inductive arg := ANum (n : N) | AText (s : string).

  Definition read_arg (t : tok) : option arg :=
    match t with
    | TWord w => if is_digits w then option_map ANum (digits_to_N w) else None
    | TText s => Some (AText s)
    | _ => None
    end.

  (** arguments up to the closing parenthesis *)
  Fixpoint read_args (ts : list tok) : option (list arg * list tok) :=
    match ts with
    | t :: TSym c :: r =>
        match read_arg t with
        | None => None
        | Some a =>
            if Ascii.eqb c ")" then Some ([a], r)
            else if Ascii.eqb c "," then option_map (fun p => (a :: fst p, snd p)) (read_args r)
            else None
        end
    | _ => None
    end.

  Fixpoint texts (l : list arg) : option (list string) :=
    match l with
    | [] => Some []
    | AText s :: l' => option_map (cons s) (texts l')
    | ANum _ :: _ => None
    end.

  Definition ft_plain (tp : my_tp) (w : string) (flen dec : Z) : field_type := mkFT tp flen dec false [] w w.

  (** optional length *)
  Definition ft_len (tp : my_tp) (w : string) (args : list arg) : option field_type :=
    match args with
    | [] => Some (ft_plain tp w (-1) (-1))
    | [ANum n] => Some (ft_plain tp w (Z.of_N n) (-1))
    | _ => None
    end.
  (** no argument *)
  Definition ft_bare (tp : my_tp) (w : string) (args : list arg) : option field_type :=
    match args with [] => Some (ft_plain tp w (-1) (-1)) | _ => None end.
  (** optional length and decimals *)
  Definition ft_dec2 (tp : my_tp) (w : string) (args : list arg) : option field_type :=
    match args with
    | [ANum n; ANum m] => Some (ft_plain tp w (Z.of_N n) (Z.of_N m))
    | _ => None
    end.
  Definition ft_elems_of (tp : my_tp) (w : string) (args : list arg) : option field_type :=
    match args with
    | [] => None
    | _ => option_map (fun l => mkFT tp (-1) (-1) false l w w) (texts args)
    end.

  (** no parentheses and empty parentheses are different, but the latter are never valid *)
  Definition read_type (word : string) (args : list arg) : option field_type :=
    let w := to_lower word in
    if String.eqb w "tinyint" then ft_len TpTiny w args
    else if String.eqb w "smallint" then ft_len TpShort w args
    else if String.eqb w "mediumint" then ft_len TpInt24 w args
    else if String.eqb w "int" || String.eqb w "integer" then ft_len TpLong w args
    else if String.eqb w "bigint" then ft_len TpLonglong w args
    else if String.eqb w "bit" then
      (* the default is BIT(1) *)
      match args with [] => Some (ft_plain TpBit w 1 (-1)) | _ => ft_len TpBit w args end
    else if String.eqb w "decimal" || String.eqb w "numeric" then
      match args with [_; _] => ft_dec2 TpNewDecimal w args | _ => ft_len TpNewDecimal w args end
    else if String.eqb w "double" then
      (* DOUBLE(M) without decimals is not valid *)
      match args with [] => ft_bare TpDouble w args | _ => ft_dec2 TpDouble w args end
    else if String.eqb w "float" then
      (* FLOAT(p) only chooses between FLOAT and DOUBLE *)
      match args with
      | [] => ft_bare TpFloat w args
      | [ANum p] => if N.leb p 24 then ft_bare TpFloat w [] else if N.leb p 53 then ft_bare TpDouble w [] else None
      | _ => ft_dec2 TpFloat w args
      end
    else if String.eqb w "char" then ft_len TpString w args
    else if String.eqb w "varchar" then match args with [] => None | _ => ft_len TpVarchar w args end
    else if String.eqb w "binary" then
      option_map (fun f => mkFT TpString (ft_flen f) (-1) true [] w w) (ft_len TpString w args)
    else if String.eqb w "varbinary" then
      match args with
      | [] => None
      | _ => option_map (fun f => mkFT TpVarchar (ft_flen f) (-1) true [] w w) (ft_len TpVarchar w args)
      end
    else if String.eqb w "tinyblob" || String.eqb w "tinytext" then ft_bare TpTinyBlob w args
    else if String.eqb w "blob" || String.eqb w "text" then ft_bare TpBlob w args
    else if String.eqb w "mediumblob" || String.eqb w "mediumtext" then ft_bare TpMediumBlob w args
    else if String.eqb w "longblob" || String.eqb w "longtext" then ft_bare TpLongBlob w args
    else if String.eqb w "date" then ft_bare TpDate w args
    else if String.eqb w "datetime" then ft_bare TpDatetime w args
    else if String.eqb w "timestamp" then ft_bare TpTimestamp w args
    else if String.eqb w "time" then ft_bare TpDuration w args
    else if String.eqb w "year" then ft_bare TpYear w args
    else if String.eqb w "json" then ft_bare TpJSON w args
    else if String.eqb w "enum" then ft_elems_of TpEnum w args
    else if String.eqb w "set" then ft_elems_of TpSet w args
    else None.

  (** a type with its arguments, and what follows *)
  Definition read_type_toks (ts : list tok) : option (field_type * list tok) :=
    match ts with
    | TWord w :: TSym c :: r =>
        if Ascii.eqb c "(" then
          match read_args r with
          | Some (args, rest) => option_map (fun f => (f, rest)) (read_type w args)
          | None => None
          end
        else None
    | TWord w :: r => option_map (fun f => (f, r)) (read_type w [])
    | _ => None
    end.

  (** ** Column options *)

  (** CURRENT_TIMESTAMP and its synonyms *)
  Definition now_words : list string := ["current_timestamp"; "localtime"; "localtimestamp"; "now"].

  Definition read_now (ts : list tok) : option (my_expr * list tok) :=
    match ts with
    | TWord w :: r =>
        if str_in (to_lower w) now_words then
          match r with
          | TSym a :: TSym b :: r' =>
              if Ascii.eqb a "(" && Ascii.eqb b ")" then Some (EFunc "CURRENT_TIMESTAMP", r') else None
          | _ => if kw w "now" then None else Some (EFunc "CURRENT_TIMESTAMP", r)
          end
        else None
    | _ => None
    end.

  Definition read_number (ts : list tok) : option (string * list tok) :=
    match ts with
    | TWord a :: TSym c :: TWord b :: r =>
        if is_digits a && Ascii.eqb c "." && is_digits b then Some (a ++ "." ++ b, r) else None
    | TWord a :: r =>
        if is_digits a then option_map (fun n => (itoa n, r)) (digits_to_N a) else None
    | _ => None
    end.

  Definition read_default (ts : list tok) : option (my_expr * list tok) :=
    match ts with
    | TText s :: r => Some (EValue (Some s), r)
    | TSym c :: r =>
        if Ascii.eqb c "-" then option_map (fun p => (EOther, snd p)) (read_number r) else None
    | TWord w :: r =>
        if kw w "null" then Some (EValue None, r)
        else match read_now ts with
             | Some p => Some p
             | None => option_map (fun p => (EValue (Some (fst p)), snd p)) (read_number ts)
             end
    | _ => None
    end.

  (** [fuel] bounds the number of options *)
  Fixpoint read_options (fuel : nat) (ts : list tok) : option (list col_option) :=
    match fuel, ts with
    | _, [] => Some []
    | O, _ => None
    | S n, TWord w :: r =>
        if kw w "not" then
          match r with
          | TWord w2 :: r' => if kw w2 "null" then option_map (cons ONotNull) (read_options n r') else None
          | _ => None
          end
        else if kw w "null" then option_map (cons ONull) (read_options n r)
        else if kw w "auto_increment" then option_map (cons OAutoIncrement) (read_options n r)
        else if kw w "default" then
          match read_default r with
          | Some (e, r') => option_map (cons (ODefault e)) (read_options n r')
          | None => None
          end
        else if kw w "on" then
          match r with
          | TWord w2 :: r' =>
              if kw w2 "update" then
                match read_now r' with
                | Some (e, r'') => option_map (cons (OOnUpdate e)) (read_options n r'')
                | None => None
                end
              else None
          | _ => None
          end
        else if kw w "comment" then
          match r with
          | TText s :: r' => option_map (cons (OComment s)) (read_options n r')
          | _ => None
          end
        else if kw w "primary" then
          match r with
          | TWord w2 :: r' => if kw w2 "key" then option_map (cons OPrimaryKey) (read_options n r') else None
          | _ => None
          end
        else if kw w "unique" then
          match r with
          | TWord w2 :: r' => if kw w2 "key" then option_map (cons OUniqKey) (read_options n r')
                              else option_map (cons OUniqKey) (read_options n r)
          | _ => option_map (cons OUniqKey) (read_options n r)
          end
        else None
    | S _, _ => None
    end.

  (** name type options *)
  Definition read_column (ts : list tok) : option col_def :=
    match ts with
    | t :: r =>
        match read_name t, read_type_toks r with
        | Some n, Some (ft, r') => option_map (mkColDef n ft) (read_options (length r') r')
        | _, _ => None
        end
    | [] => None
    end.

  (** ** Keys *)

  (** names up to the closing parenthesis, which is the last token *)
  Fixpoint read_key_list (ts : list tok) : option (list string) :=
    match ts with
    | t :: TSym c :: r =>
        match read_name t with
        | None => None
        | Some n =>
            if Ascii.eqb c ")" then match r with [] => Some [n] | _ => None end
            else if Ascii.eqb c "," then option_map (cons n) (read_key_list r)
            else None
        end
    | _ => None
    end.

  Definition read_keys (ts : list tok) : option (list string) :=
    match ts with
    | TSym c :: r => if Ascii.eqb c "(" then read_key_list r else None
    | _ => None
    end.

  (** [name] (keys) *)
  Definition read_named_keys (ts : list tok) : option (string * list string) :=
    match ts with
    | TSym _ :: _ => option_map (fun ks => ("", ks)) (read_keys ts)
    | t :: r => match read_name t, read_keys r with Some n, Some ks => Some (n, ks) | _, _ => None end
    | [] => None
    end.

  (** a key on an expression (MySQL 8.0.13): name ((lower(column))); of all expressions only these are read *)
  Definition expression_key (ts : list tok) : bool :=
    match ts with
    | n :: rest =>
        match read_name n, rest with
        | Some _, [TSym a; TSym b; TWord f; TSym c; k; TSym d; TSym e; TSym g] =>
            (kw f "lower" || kw f "upper") && forallb (Ascii.eqb "(") [a; b; c] && forallb (Ascii.eqb ")") [d; e; g] &&
            match read_name k with Some _ => true | None => false end
        | _, _ => false
        end
    | [] => false
    end.

  Inductive my_item := ItemColumn (cd : col_def) | ItemKey (k : my_constraint).

  Definition read_item (ts : list tok) : option my_item :=
    let column := option_map ItemColumn (read_column ts) in
    match ts with
    | TWord w :: r =>
        if kw w "primary" then
          match r with
          | TWord w2 :: r' => if kw w2 "key" then option_map (fun ks => ItemKey (KPrimaryKey ks)) (read_keys r') else None
          | _ => None
          end
        else if kw w "unique" then
          let r0 := match r with
                    | TWord w2 :: r' => if kw w2 "key" || kw w2 "index" then r' else r
                    | _ => r
                    end in
          option_map (fun p => ItemKey (KUniq (fst p) (snd p))) (read_named_keys r0)
        else if kw w "index" || kw w "key" then
          match read_named_keys r with
          | Some p => Some (ItemKey (KIndex (fst p) (snd p)))
          | None => if expression_key r then Some (ItemKey KExpr) else None
          end
        else column
    | _ => column
    end.

  Fixpoint read_items (l : list (list tok)) : option (list my_item) :=
    match l with
    | [] => Some []
    | x :: l' => match read_item x, read_items l' with Some i, Some r => Some (i :: r) | _, _ => None end
    end.

  (** name ( items ) *)
  Definition read_body (ts : list tok) : option my_stmt :=
    match ts with
    | t :: TSym c :: r =>
        if Ascii.eqb c "(" then
          match read_name t, split_parts 0 r with
          | Some n, Some (parts, []) =>
              match read_items parts with
              | Some items =>
                  Some (SCreateTable n
                    (flat_map (fun i => match i with ItemColumn cd => [cd] | ItemKey _ => [] end) items)
                    (flat_map (fun i => match i with ItemColumn _ => [] | ItemKey k => [k] end) items))
              | None => None
              end
          | _, _ => None
          end
        else None
    | _ => None
    end.

  (** CREATE TABLE [IF NOT EXISTS] ... *)
  Definition read_stmt (ts : list tok) : option my_stmt :=
    match ts with
    | TWord a :: TWord b :: r =>
        if kw a "create" && kw b "table" then
          match r with
          | TWord i :: TWord n :: TWord e :: r' =>
              if kw i "if" && kw n "not" && kw e "exists" then read_body r' else read_body r
          | _ => read_body r
          end
        else None
    | _ => None
    end.

  Fixpoint read_stmts (l : list (list tok)) : option (list my_stmt) :=
    match l with
    | [] => Some []
    | [] :: l' => read_stmts l'
    | x :: l' => match read_stmt x, read_stmts l' with Some i, Some r => Some (i :: r) | _, _ => None end
    end.

  Definition read_sql (s : string) : option (list my_stmt) :=
    match lex_sql s with Some ts => read_stmts (split_stmts ts) | None => None end.
End Reader.
