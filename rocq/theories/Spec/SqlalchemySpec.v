(** A reader for the part of Python that the SQLAlchemy files use (docs.python.org, The Python Language
    Reference, sections 6 to 8), and what such a file should say *)
From Coq Require Import String Ascii List NArith Bool.
From Verif.Model Require Import GoString Octopus.
From Verif.Spec Require Import Text Reading OctopusSpec GraphqlSpec.
Import ListNotations.
Local Open Scope string_scope.

(** ** Expressions *)

(** a string, a name or a number (dotted names too), or a call; a positional argument has keyword "" *)
Inductive pexpr := EStr (s : string) | EName (s : string) | ECall (f : string) (args : list (string * pexpr)).

Fixpoint all_of (p : ascii -> bool) (s : string) : bool :=
  match s with EmptyString => true | String c s' => p c && all_of p s' end.
Definition is_word (s : string) : bool := negb (String.eqb s "") && all_of word_char s.
Definition is_dotted (s : string) : bool := forallb is_word (split_on "." s).

(** the parts between the commas that are not inside parentheses; [d]: how many are open *)
Fixpoint split_args (d : nat) (s : string) : list string :=
  match s with
  | EmptyString => [""]
  | String c s' =>
      let d' := if Ascii.eqb c "(" then S d else if Ascii.eqb c ")" then pred d else d in
      if Ascii.eqb c "," && Nat.eqb d 0 then "" :: split_args d s'
      else match split_args d' s' with l :: ls => String c l :: ls | [] => [String c ""] end
  end.
(** the space after a comma *)
Definition unspaced (l : list string) : option (list string) :=
  match l with
  | [] => Some []
  | a :: r => option_map (cons a) (read_all (strip " ") r)
  end.

Definition read_arg (rd : string -> option pexpr) (s : string) : option (string * pexpr) :=
  match cut "=" s with
  | Some (k, v) => if is_word k then option_map (pair k) (rd v) else option_map (pair "") (rd s)
  | None => option_map (pair "") (rd s)
  end.
(** calls may be nested up to the depth [n] *)
Fixpoint read_expr (n : nat) (s : string) : option pexpr :=
  match between "'" "'" s with
  | Some r => if all_of (fun c => negb (Ascii.eqb c "'")) r then Some (EStr r) else None
  | None =>
      match cut "(" s with
      | Some (f, r) =>
          match n, strip_end ")" r with
          | S n', Some inner =>
              if is_dotted f then
                if String.eqb inner "" then Some (ECall f [])
                else match unspaced (split_args 0 inner) with
                     | Some l => option_map (ECall f) (read_all (read_arg (read_expr n')) l)
                     | None => None
                     end
              else None
          | _, _ => None
          end
      | None => if is_dotted s then Some (EName s) else None
      end
  end.

(** ** Files *)

(** a line with the lines that are indented below it, without that indentation; first come the indented
    lines that have no line above. Empty lines are left out. *)
Fixpoint blocks (ls : list string) : list string * list (string * list string) :=
  match ls with
  | [] => ([], [])
  | l :: ls' =>
      let '(b, bs) := blocks ls' in
      if String.eqb l "" then (b, bs)
      else match strip "    " l with
           | Some r => (r :: b, bs)
           | None => ([], (l, b) :: bs)
           end
  end.

(** what stands in a class *)
Inductive member := MAssign (x : string) (e : pexpr) | MExpr (e : pexpr) | MDef (head : string) (body : list string).
Inductive stmt :=
| PImport (m : string) (names : list string)
| PAssign (x : string) (e : pexpr)
| PClass (name base : string) (body : list member).

(** "x = e", or an expression *)
Definition read_assign (s : string) : option (string * pexpr) :=
  match cut " " s with
  | Some (x, r) => match strip "= " r with
                   | Some e => if is_word x then option_map (pair x) (read_expr 3 e) else None
                   | None => None
                   end
  | None => None
  end.
Definition read_member (b : string * list string) : option member :=
  let '(s, body) := b in
  match between "def " ":" s, body with
  | Some h, _ :: _ => Some (MDef h body)
  | Some _, [] => None
  | None, _ :: _ => None
  | None, [] => match read_assign s with
                | Some (x, e) => Some (MAssign x e)
                | None => option_map MExpr (read_expr 3 s)
                end
  end.
(** "from m import a, b" *)
Definition read_import (s : string) : option stmt :=
  match strip "from " s with
  | None => None
  | Some r =>
      match cut " " r with
      | None => None
      | Some (m, r') =>
          match strip "import " r' with
          | None => None
          | Some names =>
              match unspaced (split_on "," names) with
              | Some l => if is_dotted m && forallb is_word l then Some (PImport m l) else None
              | None => None
              end
          end
      end
  end.
Definition read_class (s : string) (body : list string) : option stmt :=
  match between "class " "):" s with
  | None => None
  | Some r =>
      match cut "(" r, blocks body with
      | Some (n, base), ([], b :: bs) =>
          if is_word n && is_word base then option_map (PClass n base) (read_all read_member (b :: bs)) else None
      | _, _ => None
      end
  end.
Definition read_stmt (b : string * list string) : option stmt :=
  match b with
  | (s, []) => match read_import s with
               | Some i => Some i
               | None => option_map (fun p => PAssign (fst p) (snd p)) (read_assign s)
               end
  | (s, body) => read_class s body
  end.
Definition read_python (s : string) : option (list stmt) :=
  match blocks (lines s) with
  | ([], bs) => read_all read_stmt bs
  | _ => None
  end.

(** ** Names *)

Fixpoint until_dot (s : string) : string :=
  match s with String c s' => if Ascii.eqb c "." then "" else String c (until_dot s') | EmptyString => "" end.
Definition numeral (s : string) : bool :=
  match s with String c _ => N.leb 48 (N_of_ascii c) && N.leb (N_of_ascii c) 57 | EmptyString => false end.
(** the names an expression refers to *)
Fixpoint names_in (e : pexpr) : list string :=
  match e with
  | EStr _ => []
  | EName s => if numeral s then [] else [until_dot s]
  | ECall f args => until_dot f :: flat_map (fun a => names_in (snd a)) args
  end.
(** the words in a line *)
Fixpoint words_in (w s : string) : list string :=
  match s with
  | EmptyString => [w]
  | String c s' => if word_char c then words_in (w ++ String c "") s' else w :: words_in "" s'
  end.

(** the names of the libraries, and the modules they come from *)
Definition homes : list (string * string) :=
  (map (fun n => (n, "sqlalchemy"))
     ["Column"; "UniqueConstraint"; "TypeDecorator"; "String"; "Boolean"; "Integer"; "BigInteger"; "Numeric";
      "Float"; "DateTime"; "Date"; "Time"; "LargeBinary"]
   ++ [("declarative_base", "sqlalchemy.ext.declarative"); ("RepresentableBase", "sqlalchemy_repr");
       ("datetime", "datetime"); ("timezone", "datetime")])%list.

(** statement [b] refers to [n]; of the lines of a function only the names of the libraries count *)
Definition member_uses (m : member) (n : string) : Prop :=
  match m with
  | MAssign _ e | MExpr e => In n (names_in e)
  | MDef h body => In n (map fst homes) /\ exists l, In l (h :: body) /\ In n (words_in "" l)
  end.
Definition stmt_uses (b : stmt) (n : string) : Prop :=
  match b with
  | PImport _ _ => False
  | PAssign _ e => In n (names_in e)
  | PClass _ base body => n = base \/ exists m, In m body /\ member_uses m n
  end.
(** [n] is known after the statements [f] *)
Definition known (f : list stmt) (n : string) : Prop :=
  In n ["True"; "False"; "None"] \/
  (exists m names, In (PImport m names) f /\ In n names /\ In (n, m) homes) \/
  (exists e, In (PAssign n e) f) \/
  (exists base body, In (PClass n base body) f).
(** every name is known where it is used *)
Definition names_known (f : list stmt) : Prop :=
  forall pre b post n, f = (pre ++ b :: post)%list -> stmt_uses b n -> known pre n.

(** the same, but for the names [xs] *)
Definition names_known_but (xs : list string) (f : list stmt) : Prop :=
  forall pre b post n, f = (pre ++ b :: post)%list -> stmt_uses b n -> known pre n \/ In n xs.

(** The Python Language Reference, 2.3.1 *)
Definition python_keywords : list string :=
  ["False"; "None"; "True"; "and"; "as"; "assert"; "async"; "await"; "break"; "class"; "continue"; "def"; "del";
   "elif"; "else"; "except"; "finally"; "for"; "from"; "global"; "if"; "import"; "in"; "is"; "lambda"; "nonlocal";
   "not"; "or"; "pass"; "raise"; "return"; "try"; "while"; "with"; "yield"].

(** ** What the file should say *)

Definition sa_types : list (list string * string) :=
  [(["char"; "varchar"; "text8"; "text16"; "text24"; "text32"], "String"); (["boolean"], "Boolean");
   (["int8"; "int16"; "int24"; "int32"], "Integer"); (["int64"], "BigInteger"); (["decimal"], "Numeric");
   (["float"; "double"], "Float"); (["datetime"], "DateTime"); (["date"], "Date"); (["time"], "Time");
   (["blob8"; "blob16"; "blob24"; "blob32"], "LargeBinary")].
(** the class for a column type; a single bit is a boolean *)
Definition sa_class_for (c : column) (k : string) : Prop :=
  (exists ts, In (ts, k) sa_types /\ In (c_type c) ts) \/
  (c_type c = "bit" /\ c_size c = 1%N /\ k = "Boolean").
Definition has_sa_type (c : column) : Prop := exists k, sa_class_for c k.
Definition audit_column (c : column) : Prop := c_name c = "created_at" \/ c_name c = "updated_at".

(** the type argument of a column *)
Inductive sa_type_arg (utc : bool) (c : column) : pexpr -> Prop :=
| arg_length : In (c_type c) ["char"; "varchar"] -> (c_size c > 0)%N ->
    sa_type_arg utc c (ECall "String" [("", EName (itoa (c_size c)))])
| arg_number : forall k args, In (c_type c) ["float"; "double"; "decimal"] -> sa_class_for c k ->
    (forall x e, In (x, e) args <-> (x = "precision" /\ (c_size c > 0)%N /\ e = EName (itoa (c_size c))) \/
                                    (x = "scale" /\ (c_scale c > 0)%N /\ e = EName (itoa (c_scale c)))) ->
    sa_type_arg utc c (ECall k args)
| arg_utc : utc = true -> c_type c = "datetime" -> ~ audit_column c -> sa_type_arg utc c (EName "TZDateTime")
| arg_plain : forall k, sa_class_for c k -> ~ In (c_type c) ["float"; "double"; "decimal"] ->
    (In (c_type c) ["char"; "varchar"] -> c_size c = 0%N) ->
    (utc = true -> c_type c = "datetime" -> audit_column c) -> sa_type_arg utc c (EName k).

(** the keyword arguments *)
Definition now (utc : bool) : pexpr := EName (if utc then "datetime.utcnow" else "datetime.now").
Inductive sa_keyword (utc : bool) (c : column) : string * pexpr -> Prop :=
| kw_pk : c_pk c = true -> sa_keyword utc c ("primary_key", EName "True")
| kw_unique : c_uq c = true -> sa_keyword utc c ("unique", EName "True")
| kw_autoinc : c_autoinc c = true -> sa_keyword utc c ("autoincrement", EName "True")
| kw_notnull : c_notnull c = true -> c_autoinc c = false -> sa_keyword utc c ("nullable", EName "False")
| kw_default : c_type c = "datetime" -> audit_column c -> sa_keyword utc c ("default", now utc)
| kw_onupdate : c_type c = "datetime" -> c_name c = "updated_at" -> sa_keyword utc c ("onupdate", now utc).

Section Described.
Variables camel snake prefix : string -> string.
Variable unwanted : list string.
Variables (suffix : string) (utc : bool).

(** the attribute for a column: lower snake case, with a "_" behind a keyword *)
Definition attr_named (c : column) (x : string) : Prop :=
  x = snake (to_lower (c_name c)) \/
  (x = snake (to_lower (c_name c)) ++ "_" /\ In (snake (to_lower (c_name c))) python_keywords).

(** the attribute is mapped to the column: its name is given, or is the name of the attribute *)
Definition column_described (c : column) (m : member) : Prop :=
  exists x named ty kws, m = MAssign x (ECall "Column" (named ++ [("", ty)] ++ kws)) /\
    attr_named c x /\
    (named = [("", EStr (c_name c))] \/ (named = [] /\ x = c_name c)) /\
    sa_type_arg utc c ty /\
    (forall a, In a kws <-> sa_keyword utc c a) /\ NoDup (map fst kws).

(** more than one unique column: a constraint over their attributes *)
Definition constraint_described (t : table) (ms : list member) : Prop :=
  let us := filter c_uq (t_cols t) in
  (length us <= 1 /\ ms = []) \/
  (length us > 1 /\ exists xs, Forall2 attr_named us xs /\
     ms = [MExpr (ECall "UniqueConstraint" (map (fun x => ("", EStr x)) xs ++ [("name", EStr (t_name t ++ suffix))]))]).

Definition class_described (t : table) (b : stmt) : Prop :=
  exists unique columns,
    b = PClass (type_named camel prefix unwanted t) "Base"
          (MAssign "__tablename__" (EStr (t_name t)) :: unique ++ columns)%list /\
    constraint_described t unique /\ Forall2 column_described (t_cols t) columns.

(** the classes for tables among the statements of a file *)
Definition is_model (b : stmt) : bool :=
  match b with PClass _ base _ => String.eqb base "Base" | _ => false end.
Definition file_described (ts : list table) (f : list stmt) : Prop :=
  Forall2 class_described ts (filter is_model f).

(** names that can stand in the file, and types that have a counterpart *)
Definition py_names_ok (ts : list table) : Prop :=
  all_chars (fun c => word_char c = true) suffix /\
  forall t, In t ts -> word (t_name t) /\ word (type_named camel prefix unwanted t) /\
    forall c, In c (t_cols t) -> word (c_name c) /\ word (snake (to_lower (c_name c))) /\ has_sa_type c.
End Described.

(** the parameters of the type classes (docs.sqlalchemy.org, Column and Data Types) *)
Definition type_parameters : list (string * list string) :=
  [("String", ["length"; "collation"]); ("Numeric", ["precision"; "scale"; "decimal_return_scale"; "asdecimal"]);
   ("Float", ["precision"; "asdecimal"; "decimal_return_scale"])].
(** every call of a type class in the file uses parameters that the class has *)
Definition type_calls_valid (f : list stmt) : Prop :=
  forall n base body x args ty targs ps k e,
    In (PClass n base body) f -> In (MAssign x (ECall "Column" args)) body ->
    In ("", ECall ty targs) args -> In (ty, ps) type_parameters -> In (k, e) targs -> k = "" \/ In k ps.

(** the output is a single file *)
Definition python_path (p : string) : Prop := exists q e, p = q ++ "." ++ e /\ to_lower e = "py".

(** the columns of the unique constraint in a class, as strings *)
Definition constraint_columns (f : list stmt) (xs : list string) : Prop :=
  exists n base body nm, In (PClass n base body) f /\
    In (MExpr (ECall "UniqueConstraint" (map (fun x => ("", EStr x)) xs ++ [("name", nm)]))) body.
