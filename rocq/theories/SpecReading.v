(** * What a printed reading tells *)
From Coq Require Import String.
From Verif Require Import ModelReading SpecCmd.
Close Scope string_scope.
Open Scope list_scope.
Open Scope Z_scope.

Definition has_name (p : Z) : Prop := exists s, In (s, p) standard_properties.
(** the numbers of the code are unsigned *)
Definition unsigned_obj (o : object) : Prop := 0 <= oid_inst (o_id o) /\ 0 <= oid_type (o_id o) /\ Forall (fun p => 0 <= pr_index p) (o_props o).
(** every value is printed on one line *)
Definition one_line (other : value -> text) (o : object) : Prop := Forall (fun p => ~ In 10 (show other (pr_data p))) (o_props o).
(** the same objects with the same properties, in the same order, [same] telling when two
    properties are, with the same indices and values that look the same *)
Definition same_reading (other : value -> text) (same : Z -> Z -> Prop) (a b : multiple_property_data) : Prop :=
  Forall2 (fun x y => o_id x = o_id y
    /\ Forall2 (fun p q => same (pr_type p) (pr_type q) /\ pr_index p = pr_index q /\ show other (pr_data p) = show other (pr_data q)) (o_props x) (o_props y))
    (md_objects a) (md_objects b).
Definition same_or_unnamed (p q : Z) : Prop := p = q \/ ~ has_name p /\ ~ has_name q.
(** two values of one of the simple kinds *)
Definition same_kind (v w : value) : Prop :=
  match v, w with
  | VNil, VNil | VNull, VNull | VBool _, VBool _ | VInt _, VInt _ | VString _, VString _ => True
  | VUint m, VUint n | VEnum m, VEnum n => 0 <= m /\ 0 <= n
  | VOid a, VOid b => (0 <= oid_inst a /\ 0 <= oid_type a) /\ 0 <= oid_inst b /\ 0 <= oid_type b
  | _, _ => False
  end.
(** a line with a text at its beginning, another at column [w] and blanks, at least one,
    between them *)
Definition two_columns (w : nat) (c1 c2 l : text) : Prop := (length c1 < w)%nat /\ firstn w l = c1 ++ repeat 32 (w - length c1) /\ skipn w l = c2.
