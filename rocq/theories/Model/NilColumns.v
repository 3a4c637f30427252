(** Schemas in memory whose lists of columns have nil pointers, as json.Unmarshal makes them of null elements. Code and
    nothing else; columns that are not nil are those of Model/Octopus.v. *)
From Coq Require Import String Ascii List NArith Bool.
From Verif.Model Require Import GoString Octopus Common.
Import ListNotations.
Local Open Scope string_scope.

(** table.go:20-27 Table: the columns are pointers, [None] is nil. [pt_rest] has the other fields; its own columns are
    not looked at. *)
Record ptable := mkPTable { pt_rest : table; pt_cols : list (option column) }.

(** table.go:185-191, the inner loop of Normalize. NormalizeType dereferences the pointer (column.go:40). The second
    part says whether the loop returned an error; its text is left out. *)
Fixpoint normalize_pcols (cs : list (option column)) : res (list (option column) * bool) :=
  match cs with
  | [] => Ok ([], false)
  | None :: _ => Panic
  | Some c :: cs' =>
      match validate true (normalize_type c) with
      | (c', Some _) => Ok (Some c' :: cs', true)
      | (c', None) =>
          match normalize_pcols cs' with
          | Ok (r, e) => Ok (Some c' :: r, e)
          | Panic => Panic
          end
      end
  end.

(** table.go:184-193, the outer loop *)
Fixpoint normalize_ptables (ts : list ptable) : res (list ptable * bool) :=
  match ts with
  | [] => Ok ([], false)
  | t :: ts' =>
      match normalize_pcols (pt_cols t) with
      | Panic => Panic
      | Ok (cs, true) => Ok (mkPTable (pt_rest t) cs :: ts', true)
      | Ok (cs, false) =>
          match normalize_ptables ts' with
          | Ok (r, e) => Ok (mkPTable (pt_rest t) cs :: r, e)
          | Panic => Panic
          end
      end
  end.

(** io.go:17-22: the tables LoadSchema returns, given those that were decoded. [sortf] is sort.Sort on TableSlice
    (table.go:182), which looks at groups and names only; no table is nil here. The error is dropped. *)
Definition load_ptables (sortf : list ptable -> list ptable) (ts : list ptable) : res (list ptable) :=
  match normalize_ptables (sortf ts) with
  | Ok (r, _) => Ok r
  | Panic => Panic
  end.
