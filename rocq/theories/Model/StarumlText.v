(** How encoding/json maps a StarUML project to the structs of /repo/format/staruml
    (importer.go:31-38 ImportJson, the call of json.Unmarshal). Same simplifications as in Json.v, except
    that null elements of arrays are kept. *)
From Coq Require Import String Ascii List NArith Bool.
From Verif.Model Require Import GoString Util Octopus Common Json JsonText Staruml.
Import ListNotations.
Local Open Scope string_scope.

(** a value of type interface{}: every number must be a float64 *)
Fixpoint numbers_ok (float_ok : string -> bool) (j : json) : bool :=
  match j with
  | JNum lit => float_ok lit
  | JArr l => forallb (numbers_ok float_ok) l
  | JObj l => forallb (fun kv => numbers_ok float_ok (snd kv)) l
  | _ => true
  end.

(** staruml.go:3-5 *)
Definition st_ref_member (r : string) (k : string) (j : json) : option string :=
  if key_is "$ref" k then dec_str r j else Some r.
Definition st_dec_ref (j : json) : option (option string) :=
  match j with
  | JNull => Some None
  | _ => option_map Some (dec_obj st_ref_member "" j)
  end.

Definition st_zero : element := Elem "" "" None "" JNull "" false false false "" None [] [].

(** staruml.go:7-26. The four references that are never read must still have the right form. *)
Fixpoint st_dec_element (float_ok : string -> bool) (j : json) : option (option element) :=
  let elements := fix elements (l : list json) : option (list (option element)) :=
    match l with
    | [] => Some []
    | x :: l' => match st_dec_element float_ok x, elements l' with
                 | Some e, Some r => Some (e :: r)
                 | _, _ => None
                 end
    end in
  let list_of (v : json) : option (list (option element)) :=
    match v with JArr l => elements l | JNull => Some [] | _ => None end in
  let member (e : element) (k : string) (v : json) : option element :=
    let '(Elem ty id pa na le tp pk uq nu dc rt ow co) := e in
    if key_is "_type" k then option_map (fun x => Elem x id pa na le tp pk uq nu dc rt ow co) (dec_str ty v)
    else if key_is "_id" k then option_map (fun x => Elem ty x pa na le tp pk uq nu dc rt ow co) (dec_str id v)
    else if key_is "_parent" k then option_map (fun x => Elem ty id x na le tp pk uq nu dc rt ow co) (st_dec_ref v)
    else if key_is "name" k then option_map (fun x => Elem ty id pa x le tp pk uq nu dc rt ow co) (dec_str na v)
    else if key_is "length" k then (if numbers_ok float_ok v then Some (Elem ty id pa na v tp pk uq nu dc rt ow co) else None)
    else if key_is "type" k then option_map (fun x => Elem ty id pa na le x pk uq nu dc rt ow co) (dec_str tp v)
    else if key_is "primaryKey" k then option_map (fun x => Elem ty id pa na le tp x uq nu dc rt ow co) (dec_bool pk v)
    else if key_is "unique" k then option_map (fun x => Elem ty id pa na le tp pk x nu dc rt ow co) (dec_bool uq v)
    else if key_is "nullable" k then option_map (fun x => Elem ty id pa na le tp pk uq x dc rt ow co) (dec_bool nu v)
    else if key_is "documentation" k then option_map (fun x => Elem ty id pa na le tp pk uq nu x rt ow co) (dec_str dc v)
    else if key_is "referenceTo" k then option_map (fun x => Elem ty id pa na le tp pk uq nu dc x ow co) (st_dec_ref v)
    else if key_is "head" k || key_is "end1" k || key_is "end2" k || key_is "reference" k
         then option_map (fun _ => e) (st_dec_ref v)
    else if key_is "ownedElements" k then option_map (fun x => Elem ty id pa na le tp pk uq nu dc rt x co) (list_of v)
    else if key_is "columns" k then option_map (fun x => Elem ty id pa na le tp pk uq nu dc rt ow x) (list_of v)
    else Some e in
  let members := fix members (e : element) (l : list (string * json)) : option element :=
    match l with
    | [] => Some e
    | (k, v) :: l' => match member e k v with
                      | Some e' => members e' l'
                      | None => None
                      end
    end in
  match j with
  | JNull => Some None
  | JObj l => option_map Some (members st_zero l)
  | _ => None
  end.

(** importer.go:34-38. The root exists before decoding, so null leaves it empty. *)
Definition st_from_text (float_ok : string -> bool) (s : string) : option element :=
  match read_text s with
  | None => None
  | Some j => match st_dec_element float_ok j with
              | None => None
              | Some None => Some st_zero
              | Some (Some e) => Some e
              end
  end.
