(** A reader for the part of proto3 (protobuf.dev, Language Specification) that is needed, and what the
    text should say about a schema *)
From Coq Require Import String Ascii List NArith ZArith Bool.
From Verif.Model Require Import GoString Octopus.
From Verif.Spec Require Import Text Reading OctopusSpec GraphqlSpec.
Import ListNotations.
Local Open Scope string_scope.

Record rfield := mkRField { rf_repeated : bool; rf_type : string; rf_name : string; rf_tag : Z }.
Inductive pitem :=
| PSyntax (v : string) | PPackage (n : string) | POption (n v : string) | PImport (f : string)
| PMessage (n : string) (fs : list rfield).

Definition read_int (s : string) : option Z :=
  match strip "-" s with
  | Some r => option_map (fun n => (- Z.of_N n)%Z) (digits_to_N r)
  | None => option_map Z.of_N (digits_to_N s)
  end.

(** "  type name = tag;" or "  repeated type name = tag;" *)
Definition read_rfield (s : string) : option rfield :=
  match between "  " ";" s with
  | None => None
  | Some r =>
      match split_on " " r with
      | [ty; n; eq; tag] =>
          if String.eqb eq "=" then option_map (mkRField false ty n) (read_int tag) else None
      | [label; ty; n; eq; tag] =>
          if String.eqb label "repeated" && String.eqb eq "="
          then option_map (mkRField true ty n) (read_int tag) else None
      | _ => None
      end
  end.

Definition read_statement (s : string) : option pitem :=
  match between "syntax = """ """;" s with
  | Some v => Some (PSyntax v)
  | None =>
  match between "package " ";" s with
  | Some v => Some (PPackage v)
  | None =>
  match between "option go_package = """ """;" s with
  | Some v => Some (POption "go_package" v)
  | None =>
  match between "import """ """;" s with
  | Some v => Some (PImport v)
  | None => None
  end end end end.

Fixpoint read_pitems (open : option (string * list rfield)) (ls : list string) : option (list pitem) :=
  match ls with
  | [] => match open with None => Some [] | Some _ => None end
  | s :: ls' =>
      match open with
      | Some (n, fs) =>
          if String.eqb s "}" then option_map (cons (PMessage n fs)) (read_pitems None ls')
          else match read_rfield s with
               | Some x => read_pitems (Some (n, (fs ++ [x])%list)) ls'
               | None => None
               end
      | None =>
          if String.eqb s "" then read_pitems None ls'
          else match between "message " " {" s with
               | Some n => read_pitems (Some (n, [])) ls'
               | None => match read_statement s with
                         | Some x => option_map (cons x) (read_pitems None ls')
                         | None => None
                         end
               end
      end
  end.
Definition read_proto (s : string) : option (list pitem) := read_pitems None (lines s).

(** ** Tags *)

(** [fs] are the fields of the columns, [rs] those of the references *)
Definition tags_ok (n : nat) (fs rs : list Z) : Prop :=
  fs = map Z.of_nat (seq 1 n) /\ NoDup rs /\ (forall x, In x rs -> (x > 0)%Z /\ ~ In x fs).

(** the numbers involved fit into 64 bits *)
Definition fits (start : Z) (n : nat) : Prop :=
  (-9223372036854775808 <= start - Z.of_nat n /\ start + Z.of_nat n < 9223372036854775808 /\
   3 * Z.of_nat n < 9223372036854775808)%Z.

(** ** What the text should say *)

Definition timestamp : string := "google.protobuf.Timestamp".
Definition timestamp_file : string := "google/protobuf/timestamp.proto".
Definition proto_types : list (string * list string) :=
  [("string", ["char"; "varchar"; "text8"; "text16"; "text24"; "text32"]); ("bool", ["boolean"]);
   ("int32", ["int8"; "int16"; "int24"; "int32"]); ("int64", ["int64"]);
   ("float", ["float"]); ("double", ["double"; "decimal"]); (timestamp, ["datetime"])].
(** a column type that has a counterpart *)
Definition proto_type (t b : string) : Prop := exists ts, In (b, ts) proto_types /\ In t ts.

(** the first table of that name *)
Definition target (ts : list table) (n : string) (t : table) : Prop :=
  exists l r, ts = (l ++ t :: r)%list /\ t_name t = n /\ forall u, In u l -> t_name u <> n.
Definition table_refs (t : table) : list reference :=
  flat_map (fun c => match c_ref c with Some r => [r] | None => [] end) (t_cols t).
(** every reference of [t] names a table of [ts] *)
Definition refs_resolve (ts : list table) (t : table) : Prop :=
  forall r, In r (table_refs t) -> exists u, In u ts /\ t_name u = ref_table r.

Section Described.
Variables camel lower_camel prefix : string -> string.
Variable unwanted : list string.

(** the message of a table: the prefix of its group and the camel case of its name *)
Definition message_named (t : table) : string := prefix (t_group t) ++ camel (without unwanted (t_name t)).

Definition column_field (c : column) (x : rfield) : Prop :=
  rf_name x = lower_camel (c_name c) /\ rf_repeated x = false /\
  (forall b, proto_type (c_type c) b -> rf_type x = b) /\
  ((forall b, ~ proto_type (c_type c) b) -> rf_type x = c_type c).
(** [multiple] says whether a one-to-many reference has to be a repeated field *)
Definition reference_field (multiple : bool) (ts : list table) (r : reference) (x : rfield) : Prop :=
  exists u, target ts (ref_table r) u /\
    rf_type x = message_named u /\ rf_name x = lower_camel (message_named u) /\
    (multiple = true -> (rf_repeated x = true <-> ref_rel r = "1:n")).
Definition message_described (multiple : bool) (ts : list table) (t : table) (m : pitem) : Prop :=
  exists cs rs, m = PMessage (message_named t) (cs ++ rs) /\
    Forall2 column_field (t_cols t) cs /\ Forall2 (reference_field multiple ts) (table_refs t) rs /\
    tags_ok (length cs) (map rf_tag cs) (map rf_tag rs).

(** the timestamp definitions are imported exactly if some column needs them *)
Definition imports_described (selected : list table) (is : list pitem) : Prop :=
  ((exists t c, In t selected /\ In c (t_cols t) /\ c_type c = "datetime") -> is = [PImport timestamp_file]) /\
  ((forall t c, In t selected -> In c (t_cols t) -> c_type c <> "datetime") -> is = []).

Definition optional (n : string) (x : pitem) : list pitem := if String.eqb n "" then [] else [x].
(** the whole file *)
Definition proto_described (multiple : bool) (package go_package : string) (ts selected : list table) (l : list pitem) : Prop :=
  exists imports messages,
    l = (PSyntax "proto3" :: optional package (PPackage package)
         ++ optional go_package (POption "go_package" go_package) ++ imports ++ messages)%list /\
    imports_described selected imports /\
    Forall2 (message_described multiple ts) selected messages.

(** names that can stand in the file *)
Definition pb_names_ok (ts selected : list table) : Prop :=
  forall t, In t selected ->
    word (message_named t) /\
    (forall c, In c (t_cols t) -> word (lower_camel (c_name c)) /\ In (c_type c) octopus_types) /\
    (forall r u, In r (table_refs t) -> target ts (ref_table r) u ->
       word (message_named u) /\ word (lower_camel (message_named u))).
End Described.

(** ** Types used and types defined *)

Definition proto_scalars : list string :=
  ["double"; "float"; "int32"; "int64"; "uint32"; "uint64"; "sint32"; "sint64"; "fixed32"; "fixed64";
   "sfixed32"; "sfixed64"; "bool"; "string"; "bytes"].
(** [l] defines or imports every type it uses *)
Definition self_contained (l : list pitem) : Prop :=
  forall n fs x, In (PMessage n fs) l -> In x fs ->
    In (rf_type x) proto_scalars \/ (exists gs, In (PMessage (rf_type x) gs) l) \/
    (rf_type x = timestamp /\ In (PImport timestamp_file) l).
