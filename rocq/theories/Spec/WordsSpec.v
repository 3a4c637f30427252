(** Descriptions, and the option comments *)
From Coq Require Import String List.
From Verif.Model Require Import Octopus Cli.
From Verif.Spec Require Import OptionsSpec MattersSpec.
Import ListNotations.
Local Open Scope string_scope.

(** the schemas have everything in common except the descriptions of tables and columns *)
Definition same_but_words : schema -> schema -> Prop := same_schema (fun a => a <> TDesc /\ a <> CDesc).
(** the option is not switched on *)
Definition without_comments (v : values) : Prop :=
  forall x, v "comments" = Some x -> ~ In x ["1"; "t"; "T"; "TRUE"; "true"; "True"].
(** all tables of the new schema were there before *)
Definition no_new_tables (from to : schema) : Prop :=
  forall t, In t (s_tables to) -> In (t_name t) (map t_name (s_tables from)).

(** a comparison for which descriptions make a difference although the option is off, in a case that meets the
    condition *)
Definition words_matter (c : command) (condition : schema -> schema -> Prop) : Prop :=
  exists w fs fs' v nf nt a b a' b', real_world w /\ (forall i, by_key (w_ord_columns w i)) /\ without_comments v /\
    v "from" = Some nf /\ v "to" = Some nt /\ load_file w fs nf = Loaded a /\ load_file w fs nt = Loaded b /\
    load_file w fs' nf = Loaded a' /\ load_file w fs' nt = Loaded b' /\ same_but_words a a' /\ same_but_words b b' /\
    condition a b /\ snd (run w fs c v) = Done /\ snd (run w fs' c v) = Done /\ fst (run w fs c v) <> fst (run w fs' c v).
