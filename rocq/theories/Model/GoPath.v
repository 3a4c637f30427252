(** Go's path.Join (used by gorm, graphql, jpa, plantuml): not part of /repo, transcribed from its
    documentation. Only the sample world of the examples uses it; the theorems hold for any function. *)
From Coq Require Import String Ascii List Bool.
From Verif.Model Require Import GoString.
Import ListNotations.
Local Open Scope string_scope.

(** path.Clean on the elements between slashes, the result so far in reverse *)
Fixpoint clean_elems (rooted : bool) (acc l : list string) : list string :=
  match l with
  | [] => rev acc
  | e :: l' =>
      if String.eqb e "" || String.eqb e "." then clean_elems rooted acc l'
      else if String.eqb e ".." then
        match acc with
        | [] => if rooted then clean_elems rooted [] l' else clean_elems rooted [".."] l'
        | a :: acc' => if String.eqb a ".." then clean_elems rooted (".." :: acc) l'
                       else clean_elems rooted acc' l'
        end
      else clean_elems rooted (e :: acc) l'
  end.

(** path.Clean *)
Definition path_clean (s : string) : string :=
  let rooted := match s with String c _ => Ascii.eqb c "/" | "" => false end in
  let body := join "/" (clean_elems rooted [] (split_char "/" s)) in
  if rooted then "/" ++ body else if String.eqb body "" then "." else body.

(** path.Join *)
Definition path_join (l : list string) : string :=
  match filter (fun e => negb (String.eqb e "")) l with
  | [] => ""
  | l' => path_clean (join "/" l')
  end.
