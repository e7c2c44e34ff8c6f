(** Model of the text of a reading (btypes/property.go:649-666).  No proofs in this file. *)
From Coq Require Import String.
From Verif Require Export ModelTables.
Close Scope string_scope.
Open Scope list_scope.
Open Scope Z_scope.

(** fmt.Sprintf("%v", data); Null and ObjectID have String methods (btypes/null/null.go:6-8,
    btypes/object.go:116-118).  [other] is what fmt makes of the kinds that are not spelt
    out here (floats, octet and bit strings, dates, times, lists). *)
Definition show (other : value -> text) (v : value) : text :=
  match v with
  | VNil => txt "<nil>"%string
  | VNull => txt "<null>"%string
  | VBool b => if b then txt "true"%string else txt "false"%string
  | VUint n | VInt n | VEnum n => sprint_d n
  | VString s => s
  | VOid o => oid_String o
  | _ => other v
  end.
(** btypes/property.go:655-660 *)
Definition prop_line (other : value -> text) (p : property) : text :=
  txt "    "%string ++ prop_String (pr_type p) ++ txt "["%string ++ sprint_d (pr_index p) ++ txt "]"%string ++ txt ": "%string
  ++ show other (pr_data p) ++ [10].
(** btypes/property.go:652-663 *)
Definition obj_text (other : value -> text) (o : object) : text :=
  oid_String (o_id o) ++ [10] ++ flat_map (prop_line other) (o_props o) ++ [10].
(** btypes/property.go:649-666 *)
Definition md_String (other : value -> text) (d : multiple_property_data) : text := flat_map (obj_text other) (md_objects d).

(** * The list of the properties *)
(** strings.Repeat; None = the panic for a negative count *)
Definition Repeat (c n : Z) : option text := if n <? 0 then None else Some (repeat c (Z.to_nat n)).
(** btypes/property.go:671-679 *)
Definition longest_name (m : list (text * Z)) : Z := fold_left (fun w x => if w <? zlen (fst x) then zlen (fst x) else w) m 0.
(** btypes/property.go:681-686, without the line feed *)
Definition print_row (c1 c2 : text) (w : Z) : option text :=
  match Repeat 32 (w - zlen c1 + 15) with Some s => Some (c1 ++ s ++ c2) | None => None end.
Fixpoint print_rows (m : list (text * Z)) (w : Z) : option (list text) :=
  match m with
  | [] => Some []
  | x :: r =>
    match print_row (fst x) (sprint_d (snd x)) w, print_rows r w with
    | Some l, Some ls => Some (l :: ls)
    | _, _ => None
    end
  end.
(** btypes/property.go:670-695: the lines printed; the table is iterated twice, in orders
    [o1] and [o2] *)
Definition PrintAllProperties (o1 o2 : list (text * Z)) : option (list text) :=
  let w := longest_name o1 in
  match print_row (txt "Key"%string) (txt "Int"%string) w, Repeat 45 (w + 15 + 6), print_rows o2 w with
  | Some h, Some r, Some ls => Some (h :: r :: ls)
  | _, _, _ => None
  end.
