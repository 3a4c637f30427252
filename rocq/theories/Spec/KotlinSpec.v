(** A reader for the fragment of Kotlin in which JPA entities are written, and what the files should say.
    Written from the Kotlin grammar (kotlinlang.org/grammar) and the documentation of JPA; white space does
    not matter, a comma may follow the last parameter (Kotlin 1.4). *)
From Coq Require Import String Ascii List NArith Bool.
From Verif.Model Require Import GoString Octopus.
From Verif.Spec Require Import Text Reading OctopusSpec GraphqlSpec.
Import ListNotations.
Local Open Scope string_scope.

(** ** Tokens *)

Inductive tok := TWord (s : string) | TText (s : string) | TMark (c : ascii).
Inductive mode := Between | InWord (w : string) | InText (t : string) | Bad.

Definition double_quote : ascii := "034".
Definition blank (c : ascii) : bool := Ascii.eqb c " " || Ascii.eqb c newline.

(** a character between two tokens; the tokens read so far, the last one first *)
Definition begin (c : ascii) (ts : list tok) : mode * list tok :=
  if word_char c then (InWord (String c ""), ts)
  else if Ascii.eqb c double_quote then (InText "", ts)
  else if blank c then (Between, ts)
  else (Between, TMark c :: ts).
Definition step (st : mode * list tok) (c : ascii) : mode * list tok :=
  match fst st with
  | Bad => st
  | Between => begin c (snd st)
  | InWord w => if word_char c then (InWord (w ++ String c ""), snd st) else begin c (TWord w :: snd st)
  | InText t =>
      if Ascii.eqb c double_quote then (Between, TText t :: snd st)
      else if Ascii.eqb c newline || Ascii.eqb c "\" || Ascii.eqb c "$" then (Bad, [])
      else (InText (t ++ String c ""), snd st)
  end.
Fixpoint scan (st : mode * list tok) (s : string) : mode * list tok :=
  match s with EmptyString => st | String c s' => scan (step st c) s' end.
Definition tokens (s : string) : option (list tok) :=
  match scan (Between, []) s with
  | (Between, ts) => Some (rev ts)
  | (InWord w, ts) => Some (rev (TWord w :: ts))
  | _ => None
  end.

(** ** Brackets *)

Inductive tree := Leaf (t : tok) | Group (o : ascii) (ts : list tree).

Definition closes (o c : ascii) : bool :=
  (Ascii.eqb o "(" && Ascii.eqb c ")") || (Ascii.eqb o "[" && Ascii.eqb c "]").
Definition opening (c : ascii) : bool := Ascii.eqb c "(" || Ascii.eqb c "[".
Definition closing (c : ascii) : bool := Ascii.eqb c ")" || Ascii.eqb c "]".
(** [stack]: the brackets that are open, with what stands before them; [cur]: what stands in the innermost
    one; both the last one first *)
Fixpoint build (stack : list (ascii * list tree)) (cur : list tree) (l : list tok) : option (list tree) :=
  match l with
  | [] => match stack with [] => Some (rev cur) | _ => None end
  | TMark c :: l' =>
      if opening c then build ((c, cur) :: stack) [] l'
      else if closing c then
        match stack with
        | (o, up) :: stack' => if closes o c then build stack' (Group o (rev cur) :: up) l' else None
        | [] => None
        end
      else build stack (Leaf (TMark c) :: cur) l'
  | t :: l' => build stack (Leaf t :: cur) l'
  end.
Definition read_trees (s : string) : option (list tree) :=
  match tokens s with Some l => build [] [] l | None => None end.
(** Kotlin, written in quotes *)
Definition kt (s : string) : list tree := match read_trees s with Some l => l | None => [] end.

(** ** Grammar *)

(** the hard keywords *)
Definition kotlin_keywords : list string :=
  ["as"; "break"; "class"; "continue"; "do"; "else"; "false"; "for"; "fun"; "if"; "in"; "interface"; "is"; "null";
   "object"; "package"; "return"; "super"; "this"; "throw"; "true"; "try"; "typealias"; "typeof"; "val"; "var";
   "when"; "while"; "import"].
Definition identifier (s : string) : bool :=
  match s with
  | EmptyString => false
  | String c _ => negb (is_digit c) && string_forallb word_char s && negb (str_in s kotlin_keywords)
  end.

Definition is_mark (c : ascii) (t : tree) : bool :=
  match t with Leaf (TMark d) => Ascii.eqb c d | _ => false end.
Definition is_word (w : string) (t : tree) : bool :=
  match t with Leaf (TWord v) => String.eqb w v | _ => false end.
Definition name_of (t : tree) : option string :=
  match t with Leaf (TWord w) => if identifier w then Some w else None | _ => None end.

(** [a.b.c], and [a.b.*] *)
Fixpoint read_path (l : list tree) : option (list string * list tree) :=
  match l with
  | [] => None
  | t :: l1 =>
      match name_of t with
      | None => None
      | Some a =>
          match l1 with
          | d :: l2 =>
              if is_mark "." d then
                match l2 with
                | s :: l3 => if is_mark "*" s then Some ([a; "*"], l3) else
                             match read_path l2 with Some (p, r) => Some (a :: p, r) | None => None end
                | [] => None
                end
              else Some ([a], l1)
          | [] => Some ([a], [])
          end
      end
  end.

(** what stands between commas *)
Fixpoint commas (l : list tree) : list (list tree) :=
  match l with
  | [] => [[]]
  | t :: l' =>
      if is_mark "," t then [] :: commas l'
      else match commas l' with x :: xs => (t :: x) :: xs | [] => [[t]] end
  end.
Fixpoint drop_last_empty (l : list (list tree)) : list (list tree) :=
  match l with
  | [] => []
  | [x] => match x with [] => [] | _ => [x] end
  | x :: l' => x :: drop_last_empty l'
  end.
Definition items (l : list tree) : list (list tree) := drop_last_empty (commas l).

(** arguments: [key = value], or a value *)
Definition arg : Type := string * list tree.
Definition read_arg (l : list tree) : arg :=
  match l with
  | k :: e :: v => match name_of k with
                   | Some n => if is_mark "=" e then (n, v) else ("", l)
                   | None => ("", l)
                   end
  | _ => ("", l)
  end.
Record anno := mkAnno { an_name : string; an_args : list arg }.
Fixpoint read_annos (l : list tree) : list anno * list tree :=
  match l with
  | m :: n :: l' =>
      match is_mark "@" m, name_of n with
      | true, Some w =>
          match l' with
          | Group o args :: l2 =>
              let '(more, rest) := read_annos l2 in (mkAnno w (map read_arg (items args)) :: more, rest)
          | _ => let '(more, rest) := read_annos l' in (mkAnno w [] :: more, rest)
          end
      | _, _ => ([], l)
      end
  | _ => ([], l)
  end.

(** up to a mark *)
Fixpoint until (p : tree -> bool) (l : list tree) : list tree * list tree :=
  match l with
  | [] => ([], [])
  | t :: l' => if p t then ([], l) else let '(a, b) := until p l' in (t :: a, b)
  end.

(** the properties in the head of a class *)
Record param := mkParam {
  kp_annos : list anno;
  kp_override : bool;
  kp_name : string;
  kp_type : list tree;
  kp_default : option (list tree)
}.
Definition read_param (l : list tree) : option param :=
  let '(annos, l1) := read_annos l in
  let '(ov, l2) := match l1 with t :: l2 => if is_word "override" t then (true, l2) else (false, l1) | [] => (false, l1) end in
  match l2 with
  | v :: n :: c :: l3 =>
      match is_word "var" v, name_of n, is_mark ":" c with
      | true, Some name, true =>
          match until (is_mark "=") l3 with
          | ([], _) => None
          | (ty, []) => Some (mkParam annos ov name ty None)
          | (_, [_]) => None
          | (ty, _ :: d) => Some (mkParam annos ov name ty (Some d))
          end
      | _, _, _ => None
      end
  | _ => None
  end.

Inductive decl :=
| DClass (annos : list anno) (name : string) (params : list param) (super : list tree)
| DInterface (annos : list anno) (name : string) (super : list tree).

Definition starts_decl (t : tree) (l : list tree) : bool :=
  is_mark "@" t || is_word "interface" t || (is_word "data" t && match l with u :: _ => is_word "class" u | [] => false end).
Fixpoint until_decl (l : list tree) : list tree * list tree :=
  match l with
  | [] => ([], [])
  | t :: l' => if starts_decl t l' then ([], l) else let '(a, b) := until_decl l' in (t :: a, b)
  end.
Definition read_super (l : list tree) : list tree * list tree :=
  match l with
  | t :: l' => if is_mark ":" t then until_decl l' else ([], l)
  | [] => ([], [])
  end.
Definition read_decl (l : list tree) : option (decl * list tree) :=
  let '(annos, l1) := read_annos l in
  match l1 with
  | a :: b :: l2 =>
      if is_word "interface" a then
        match name_of b with
        | Some n => let '(super, rest) := read_super l2 in Some (DInterface annos n super, rest)
        | None => None
        end
      else if is_word "data" a && is_word "class" b then
        match l2 with
        | n :: Group o ps :: l3 =>
            match name_of n, read_all read_param (items ps) with
            | Some name, Some params => let '(super, rest) := read_super l3 in Some (DClass annos name params super, rest)
            | _, _ => None
            end
        | _ => None
        end
      else None
  | _ => None
  end.
(** [n]: an upper bound for the length of the list *)
Fixpoint read_decls (n : nat) (l : list tree) : option (list decl) :=
  match l, n with
  | [], _ => Some []
  | _, O => None
  | _, S n' => match read_decl l with
               | Some (d, rest) => match read_decls n' rest with Some ds => Some (d :: ds) | None => None end
               | None => None
               end
  end.
Fixpoint read_imports (n : nat) (l : list tree) : option (list (list string) * list tree) :=
  match l, n with
  | t :: l', S n' =>
      if is_word "import" t then
        match read_path l' with
        | Some (p, rest) => match read_imports n' rest with Some (ps, r) => Some (p :: ps, r) | None => None end
        | None => None
        end
      else Some ([], l)
  | _, _ => Some ([], l)
  end.

Record kfile := mkKfile {
  ki_package : list string;
  ki_imports : list (list string);
  ki_decls : list decl
}.
Definition read_kotlin (s : string) : option kfile :=
  match read_trees s with
  | Some (t :: l) =>
      if is_word "package" t then
        match read_path l with
        | Some (p, l1) =>
            match read_imports (length l1) l1 with
            | Some (is, l2) =>
                match read_decls (length l2) l2 with Some ds => Some (mkKfile p is ds) | None => None end
            | None => None
            end
        | None => None
        end
      else None
  | _ => None
  end.

(** ** What the files should say *)

(** Kotlin types for column types, and values of these types *)
Definition kt_types : list (list string * (string * string)) :=
  [(["char"; "varchar"; "text8"; "text16"; "text24"; "text32"], ("String", """""")); (["boolean"], ("Boolean", "false"));
   (["int8"; "int16"; "int24"; "int32"], ("Int", "0")); (["int64"], ("Long", "0L"));
   (["decimal"], ("BigDecimal", "BigDecimal.ZERO")); (["float"], ("Float", "0.0F")); (["double"], ("Double", "0.0"));
   (["datetime"], ("Timestamp", "Timestamp(System.currentTimeMillis())"));
   (["date"], ("LocalDate", "LocalDate.now()")); (["time"], ("LocalTime", "LocalTime.now()"))].
Definition kt_default (c : column) (ty value : string) : Prop :=
  exists ts, In (ts, (ty, value)) kt_types /\ In (c_type c) ts.
Definition has_default (c : column) : Prop := exists ty value, kt_default c ty value.
Definition blob_types : list string := ["blob8"; "blob16"; "blob24"; "blob32"].
Definition kt_type_for (c : column) (ty : string) : Prop :=
  (exists value, kt_default c ty value) \/ (In (c_type c) blob_types /\ ty = "Blob") \/
  (~ has_default c /\ ~ In (c_type c) blob_types /\ ty = "Any").
(** with a question mark if the column may be null *)
Definition kt_property_type (c : column) (ty : list tree) : Prop :=
  exists k, kt_type_for c k /\ ty = Leaf (TWord k) :: (if c_notnull c then [] else [Leaf (TMark "?")]).

Definition text_of (s : string) : list tree := [Leaf (TText s)].
Definition number (n : N) : list tree := [Leaf (TWord (itoa n))].

Section Described.
Variables camel lower_camel snake prefix : string -> string.
(** the names of the annotations for a group *)
Variable wanted : string -> list string.
Variable unwanted : list string.
Variables identity relation suffix : string.
(** the selected tables *)
Variable ts : list table.

Definition class_named (t : table) : string := type_named camel prefix unwanted t.
Definition property (c : column) : string := lower_camel (c_name c).
Definition keys (t : table) : list column := filter c_pk (t_cols t).

(** an attribute of [@Column] *)
Inductive column_attr (c : column) : arg -> Prop :=
| attr_name : snake (property c) <> c_name c -> column_attr c ("name", text_of (c_name c))
| attr_nullable : c_notnull c = true -> column_attr c ("nullable", kt "false")
| attr_length : In (c_type c) ["char"; "varchar"; "text8"; "text16"; "text24"; "text32"] -> (c_size c > 0)%N ->
    column_attr c ("length", number (c_size c))
| attr_precision : In (c_type c) ["float"; "double"; "decimal"] -> (c_size c > 0)%N -> column_attr c ("precision", number (c_size c))
| attr_scale : In (c_type c) ["float"; "double"; "decimal"] -> (c_scale c > 0)%N -> column_attr c ("scale", number (c_scale c))
| attr_updatable : c_type c = "datetime" -> property c = "createdAt" -> column_attr c ("updatable", kt "false").

(** another annotation of a property *)
Inductive property_anno (c : column) : anno -> Prop :=
| anno_id : c_pk c = true -> property_anno c (mkAnno "Id" [])
| anno_generated : c_autoinc c = true -> property_anno c (mkAnno "GeneratedValue" [("strategy", kt "GenerationType.AUTO")])
| anno_lob : In (c_type c) ["text8"; "text16"; "text24"; "text32"] -> property_anno c (mkAnno "Lob" [])
| anno_relation : forall r t pre post, relation = "VRelation" -> c_ref c = Some r ->
    ts = (pre ++ t :: post)%list -> t_name t = ref_table r -> ~ In (ref_table r) (map t_name pre) ->
    property_anno c (mkAnno "VRelation" [("cls", text_of (class_named t)); ("field", text_of (lower_camel (ref_column r)))])
| anno_created : c_type c = "datetime" -> property c = "createdAt" -> property_anno c (mkAnno "CreationTimestamp" [])
| anno_updated : c_type c = "datetime" -> property c = "updatedAt" -> property_anno c (mkAnno "UpdateTimestamp" []).

Definition annos_described (c : column) (annos : list anno) : Prop :=
  exists others columns, annos = (others ++ columns)%list /\
    (forall a, In a others <-> property_anno c a) /\ NoDup (map an_name others) /\
    ((columns = [] /\ forall a, ~ column_attr c a) \/
     exists attrs, columns = [mkAnno "Column" attrs] /\ attrs <> [] /\ NoDup (map fst attrs) /\
       forall a, In a attrs <-> column_attr c a).

(** the class implements the interface with the property [id] *)
Definition identified (t : table) (c : column) : Prop := identity <> "" /\ keys t = [c] /\ property c = "id".

Definition value_described (c : column) (d : option (list tree)) : Prop :=
  (c_notnull c = false /\ d = None) \/
  (c_notnull c = true /\ exists ty value, kt_default c ty value /\ d = Some (kt value)).

Definition param_described (t : table) (c : column) (p : param) : Prop :=
  kp_name p = property c /\ kt_property_type c (kp_type p) /\ value_described c (kp_default p) /\
  annos_described c (kp_annos p) /\ (kp_override p = true <-> identified t c /\ c_pk c = true).

(** the unique columns: a constraint, with the names of the properties *)
Definition table_anno (t : table) (a : anno) : Prop :=
  let us := filter c_uq (t_cols t) in
  (us = [] /\ a = mkAnno "Table" [("name", text_of (t_name t))]) \/
  (us <> [] /\ exists names,
     a = mkAnno "Table" [("name", text_of (t_name t)); ("uniqueConstraints", [Group "[" [Leaf (TWord "UniqueConstraint");
           Group "(" ([Leaf (TWord "name"); Leaf (TMark "="); Leaf (TText (t_name t ++ suffix)); Leaf (TMark ",");
                       Leaf (TWord "columnNames"); Leaf (TMark "="); Group "[" names])]])] /\
     items names = map (fun c => text_of (property c)) us).

(** the id class: the key properties, none of them optional *)
Definition id_param_described (c : column) (p : param) : Prop :=
  kp_name p = property c /\ kt_property_type c (kp_type p) /\ value_described c (kp_default p) /\
  kp_annos p = [] /\ kp_override p = false.
Definition id_class (t : table) : string := class_named t ++ "PK".

Definition super_described (t : table) (super : list tree) : Prop :=
  (super = [] /\ forall c, ~ identified t c) \/
  (exists c ty, identified t c /\ kt_property_type c ty /\
     super = ([Leaf (TWord identity); Leaf (TMark "<")] ++ ty ++ [Leaf (TMark ">")])%list).

Definition entity_described (t : table) (ds : list decl) : Prop :=
  exists table_annos ids params super more,
    ds = DClass (map (fun w => mkAnno w []) (wanted (t_group t)) ++ [mkAnno "Entity" []; table_annos] ++ ids)%list
           (class_named t) params super :: more /\
    table_anno t table_annos /\ super_described t super /\
    Forall2 (param_described t) (t_cols t) params /\
    ((length (keys t) <= 1 /\ ids = [] /\ more = []) \/
     (length (keys t) > 1 /\ ids = [mkAnno "IdClass" [("", [Leaf (TWord (id_class t)); Leaf (TMark ":"); Leaf (TMark ":"); Leaf (TWord "class")])]] /\
      exists ps, more = [DClass [] (id_class t) ps (kt "Serializable")] /\ Forall2 id_param_described (keys t) ps)).

(** the repository: with the type of the key, or the id class *)
Definition repository_described (package : list string) (t : table) (f : kfile) : Prop :=
  ki_imports f = [(package ++ ["*"])%list; ["org"; "springframework"; "data"; "jpa"; "repository"; "JpaRepository"];
                  ["org"; "springframework"; "stereotype"; "Repository"]] /\
  exists id, ki_decls f = [DInterface [mkAnno "Repository" []] (class_named t ++ "Repository")
      ([Leaf (TWord "JpaRepository"); Leaf (TMark "<"); Leaf (TWord (class_named t)); Leaf (TMark ",")] ++ id ++ [Leaf (TMark ">")])%list] /\
    ((exists c, keys t = [c] /\ kt_property_type c id) \/
     (length (keys t) > 1 /\ id = [Leaf (TWord (id_class t))])).

(** the reference leads to the class of a selected table, the first one with its name *)
Definition resolved (c : column) : Prop :=
  forall r, relation = "VRelation" -> c_ref c = Some r ->
  exists pre t post, ts = (pre ++ t :: post)%list /\ t_name t = ref_table r /\ ~ In (ref_table r) (map t_name pre) /\ class_named t <> "".

(** ** Names that can stand in the file *)

Definition package_ok (p : string) : Prop := Forall (fun s => identifier s = true) (split_on "." p).
(** [""]: no annotation *)
Inductive annotations : list string -> list string -> Prop :=
| no_annotation : annotations [] []
| empty_annotation : forall l ns, annotations l ns -> annotations ("" :: l) ns
| one_annotation : forall n l ns, identifier n = true -> annotations l ns -> annotations (("@" ++ n) :: l) (n :: ns).

Definition kt_names_ok : Prop :=
  (identity = "" \/ identifier identity = true) /\
  all_chars (fun c => word_char c = true) suffix /\
  forall t, In t ts ->
    word (t_name t) /\ identifier (class_named t) = true /\
    forall c, In c (t_cols t) -> word (c_name c) /\ identifier (property c) = true /\ In (c_type c) octopus_types /\
      (c_notnull c = true -> has_default c) /\
      (identified t c \/ (c_pk c = true /\ length (keys t) > 1) -> c_notnull c = true) /\
      forall r, relation = "VRelation" -> c_ref c = Some r -> In (ref_table r) (map t_name ts) /\ word (lower_camel (ref_column r)).
End Described.

(** ** Imports *)

(** names of the libraries, and where they come from *)
Definition kt_homes : list (string * list string) :=
  [("BigDecimal", ["java"; "math"; "BigDecimal"]); ("Timestamp", ["java"; "sql"; "Timestamp"]);
   ("LocalDate", ["java"; "time"; "LocalDate"]); ("LocalTime", ["java"; "time"; "LocalTime"]);
   ("Blob", ["java"; "sql"; "Blob"]); ("Serializable", ["java"; "io"; "Serializable"]);
   ("CreationTimestamp", ["org"; "hibernate"; "annotations"; "CreationTimestamp"]);
   ("UpdateTimestamp", ["org"; "hibernate"; "annotations"; "UpdateTimestamp"]);
   ("JpaRepository", ["org"; "springframework"; "data"; "jpa"; "repository"; "JpaRepository"]);
   ("Repository", ["org"; "springframework"; "stereotype"; "Repository"]);
   ("Entity", ["javax"; "persistence"; "*"]); ("Table", ["javax"; "persistence"; "*"]);
   ("UniqueConstraint", ["javax"; "persistence"; "*"]); ("IdClass", ["javax"; "persistence"; "*"]);
   ("Id", ["javax"; "persistence"; "*"]); ("GeneratedValue", ["javax"; "persistence"; "*"]);
   ("GenerationType", ["javax"; "persistence"; "*"]); ("Lob", ["javax"; "persistence"; "*"]);
   ("Column", ["javax"; "persistence"; "*"])].

(** words in trees; the names of annotations and of arguments are kept apart by the reader *)
Fixpoint words_of (t : tree) : list string :=
  match t with
  | Leaf (TWord w) => [w]
  | Leaf _ => []
  | Group _ ts => flat_map words_of ts
  end.
Definition anno_uses (a : anno) : list string := an_name a :: flat_map (fun x => flat_map words_of (snd x)) (an_args a).
Definition param_uses (p : param) : list string :=
  (flat_map anno_uses (kp_annos p) ++ flat_map words_of (kp_type p)
   ++ match kp_default p with Some d => flat_map words_of d | None => [] end)%list.
Definition decl_uses (d : decl) : list string :=
  match d with
  | DClass annos _ params super => (flat_map anno_uses annos ++ flat_map param_uses params ++ flat_map words_of super)%list
  | DInterface annos _ super => (flat_map anno_uses annos ++ flat_map words_of super)%list
  end.
Definition file_uses (f : kfile) : list string := flat_map decl_uses (ki_decls f).
(** every name of the libraries that is used is imported *)
Definition kt_imports_enough (f : kfile) : Prop :=
  forall n p, In n (file_uses f) -> In (n, p) kt_homes -> In p (ki_imports f).
(** everything that is imported is used *)
Definition kt_imports_used (f : kfile) : Prop :=
  forall p, In p (ki_imports f) -> exists n, In (n, p) kt_homes /\ In n (file_uses f).

(** ** Unique constraints *)

Fixpoint arg_value (key : string) (l : list arg) : list tree :=
  match l with
  | [] => []
  | (k, v) :: l' => if String.eqb k key then v else arg_value key l'
  end.
Definition arguments_in (l : list tree) : list arg := map read_arg (items l).
(** the columns in [uniqueConstraints = [UniqueConstraint(..., columnNames = [...])]] *)
Definition constraint_names (a : anno) : list string :=
  match arg_value "uniqueConstraints" (an_args a) with
  | [Group _ [_; Group _ inner]] =>
      match arg_value "columnNames" (arguments_in inner) with
      | [Group _ names] => flat_map (fun x => match x with [Leaf (TText n)] => [n] | _ => [] end) (items names)
      | _ => []
      end
  | _ => []
  end.
(** the column of a property: the name in [@Column], or else the name of the property *)
Definition column_called (p : param) (n : string) : Prop :=
  (exists attrs, In (mkAnno "Column" attrs) (kp_annos p) /\ In ("name", text_of n) attrs) \/
  (kp_name p = n /\ forall attrs v, In (mkAnno "Column" attrs) (kp_annos p) -> ~ In ("name", v) attrs).
Definition constraints_known (d : decl) : Prop :=
  match d with
  | DClass annos _ params _ => forall a n, In a annos -> In n (constraint_names a) -> exists p, In p params /\ column_called p n
  | DInterface _ _ _ => True
  end.

(** ** The interface with the property [id] *)

Definition id_overridden (identity : string) (d : decl) : Prop :=
  match d with
  | DClass _ _ params (Leaf (TWord w) :: _) => w = identity -> exists p, In p params /\ kp_name p = "id" /\ kp_override p = true
  | _ => True
  end.
