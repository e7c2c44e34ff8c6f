(** ReadPropertyMultiple answers (135 clause 15.7) as a caller holds them, and date
    patterns (20.2.12). *)
From Verif Require Import Types SpecWire SpecLayers SpecServices.

(** identifiers the wire can carry *)
Definition sendable (o : object) : Prop :=
  valid_oid (o_id o) /\ Forall (fun p => in_u32 (pr_type p) /\ in_u32 (pr_index p)) (o_props o).
(** the answer holding exactly these objects, properties and values *)
Definition std_answer (inv : Z) (os : list object) : list Z :=
  spec_readmulti_ack inv
    (map (fun o => (o_id o, map (fun p => mkResult (pr_type p) (pr_index p) [SVal (pr_data p)]) (o_props o))) os).

(** the memory of a value of a fixed size, most significant octet first, without
    anything telling its type or length *)
Definition raw (v : value) : option (list Z) :=
  match v with
  | VNull => Some []
  | VBool b => Some [if b then 1 else 0]
  | VUint n | VEnum n | VReal n => Some (octets 4 n)
  | VInt n => Some (octets 4 (n mod 2 ^ 32))
  | VDouble x => Some (octets 8 x)
  | VOctets l => Some l
  | VOid o => Some (octets 2 (oid_type o) ++ octets 4 (oid_inst o))
  | _ => None
  end.
Definition octets_of (v : value) : list Z := match raw v with Some l => l | None => [] end.
Definition values_of (os : list object) : list value := flat_map (fun o => map pr_data (o_props o)) os.
(** what is written instead: the value without its tag, and once more after the
    closing tag *)
Definition doubled (p : property) : list Z :=
  spec_ctx_unsigned 2 (pr_type p) ++ spec_index 3 (pr_index p)
  ++ spec_open 4 ++ octets_of (pr_data p) ++ spec_close 4 ++ octets_of (pr_data p).
Definition doubled_answer (inv : Z) (os : list object) : list Z :=
  spec_complex_ack inv 14
  ++ flat_map (fun o => spec_ctx_oid 0 (o_id o) ++ spec_open 1 ++ flat_map doubled (o_props o) ++ spec_close 1) os.

(** 20.2.12: month 13 stands for odd and 14 for even months; day 32 for the last
    day of a month, 33 for odd and 34 for even days *)
Inductive month_pattern := MNumber | MOdd | MEven.
Inductive day_pattern := DNumber | DLast | DOdd | DEven.
Definition std_month (m : Z) : month_pattern := if m =? 13 then MOdd else if m =? 14 then MEven else MNumber.
Definition std_day (d : Z) : day_pattern := if d =? 32 then DLast else if d =? 33 then DOdd else if d =? 34 then DEven else DNumber.
