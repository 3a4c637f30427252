(** What the values of the options mean *)
From Coq Require Import String Ascii List NArith.
From Verif.Model Require Import GoString.
From Verif.Spec Require Import Text CommonSpec JsonSpec.
Import ListNotations.
Local Open Scope string_scope.

(** the parts of a separated list *)
Definition parts_of (sep : ascii) (opt : string) (l : list string) : Prop :=
  l <> [] /\ (forall p, In p l -> ~ char_in sep p) /\ opt = join (String sep "") l.

(** the value of a group; the last one counts *)
Definition value_for (l : list (string * string)) (g x : string) : Prop :=
  exists l1 l2, l = (l1 ++ (g, x) :: l2)%list /\ ~ In g (map fst l2).

(** "group:value,group:value,..." *)
Definition group_values (opt : string) (l : list (string * string)) : Prop :=
  l <> [] /\ opt = pairs_text l /\
  forall g x, In (g, x) l -> ~ char_in "," g /\ ~ char_in "," x /\ ~ char_in ":" g.

(** the prefixes of the groups: one for all of them, or one for each *)
Definition prefix_for (opt : string) (prefix : string -> string) : Prop :=
  (~ char_in ":" opt /\ forall g, prefix g = opt) \/
  exists l, group_values opt l /\
    forall g, value_for l g (prefix g) \/ ~ In g (map fst l) /\ prefix g = "".

(** the annotations of the groups: one for all of them, or lists separated by semicolons *)
Definition annotations_for (opt : string) (annos : string -> list string) : Prop :=
  (~ char_in ":" opt /\ forall g, annos g = [opt]) \/
  exists l, group_values opt l /\
    forall g, (exists x, value_for l g x /\ parts_of ";" x (annos g)) \/ ~ In g (map fst l) /\ annos g = [].

(** "Model:column,column,...": a name of letters, digits, '.' and '_', and columns on one line *)
Definition model_char (c : ascii) : Prop :=
  byte 48 57 c \/ byte 65 90 c \/ byte 97 122 c \/ c = "."%char \/ c = "_"%char.
Definition embeds (opt name : string) (columns : list string) : Prop :=
  exists cols, opt = name ++ ":" ++ cols /\ name <> "" /\ (forall c, char_in c name -> model_char c) /\
    ~ char_in "010" cols /\ (cols = "" /\ columns = [] \/ cols <> "" /\ parts_of "," cols columns).

(** the models known with the option: the one of GORM and the one the option defines, in its place if it has the same name *)
Definition models_with (opt : string) (ms : list (string * list string)) : Prop :=
  NoDup (map fst ms) /\
  forall n cols, In (n, cols) ms <->
    embeds opt n cols \/
    n = "gorm.Model" /\ cols = ["id"; "created_at"; "updated_at"; "deleted_at"] /\ forall cols', ~ embeds opt n cols'.
