(** The functions ToCamel, ToLowerCamel and ToSnake of github.com/iancoleman/strcase v0.2.0 (/repo/go.mod:9).
    The library is not part of /repo: this is what its source does, as far as known, on ASCII strings. The
    theorems about the generators do not use it (they hold for any such functions); it is used to run the model. *)
From Coq Require Import String Ascii List NArith Bool.
From Verif.Model Require Import GoString.
Import ListNotations.
Local Open Scope string_scope.

Definition upper_ascii (c : ascii) : ascii := if is_lower c then ascii_of_nat (nat_of_ascii c - 32) else c.

(** camel.go toCamelInitCase, the loop; [first] says that this is the first byte *)
Fixpoint camel_loop (first cap_next : bool) (s : string) : string :=
  match s with
  | "" => ""
  | String v s' =>
      let w := if cap_next then upper_ascii v else if first then lower_ascii v else v in
      if is_letter v then String w (camel_loop false false s')
      else if is_digit v then String w (camel_loop false true s')
      else camel_loop false (str_in (String v "") ["_"; " "; "-"; "."]) s'
  end.
(** acronyms.go: "ID" is treated as "id" *)
Definition camel_init (init : bool) (s : string) : string :=
  let s := trim_space s in
  camel_loop true init (if String.eqb s "ID" then "id" else s).
Definition strcase_camel : string -> string := camel_init true.
Definition strcase_lower_camel : string -> string := camel_init false.

(** snake.go ToScreamingDelimited with delimiter '_', nothing ignored, not screaming; [prev_cap] says whether the byte
    before is a capital *)
Fixpoint snake_loop (prev_cap : bool) (s : string) : string :=
  match s with
  | "" => ""
  | String v s' =>
      let w := String (lower_ascii v) "" in
      let rest := snake_loop (is_upper v) s' in
      let plain := (if str_in (String v "") [" "; "_"; "-"; "."] then "_" else w) ++ rest in
      match s' with
      | "" => plain
      | String next _ =>
          if is_upper v && (is_lower next || is_digit next)
             || is_lower v && (is_upper next || is_digit next)
             || is_digit v && (is_upper next || is_lower next)
          then (if is_upper v && is_lower next && prev_cap then "_" else "") ++ w ++
               (if is_lower v || is_digit v || is_digit next then "_" else "") ++ rest
          else plain
      end
  end.
Definition strcase_snake (s : string) : string := snake_loop false (trim_space s).
