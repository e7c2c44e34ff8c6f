(** Independent description of the confirmed services used (135 clauses 15.5,
    15.7, 15.9, 15.10 and 21) and of what a caller should see. *)
From Verif Require Import Types SpecWire SpecLayers.

(** a primitive value as a device sends it: a value of SpecWire or a bit string *)
Inductive sent := SVal (v : value) | SBits (l : list bool).
Definition spec_sent (s : sent) : list Z := match s with SVal v => spec_app v | SBits l => spec_bits l end.
(** values the decoder supports (C08-C10) *)
Definition supported (s : sent) : Prop :=
  match s with SVal v => readable v | SBits l => zlen l <= 120 end.
(** the library's bit string: bit i is bit (i mod 8) of octet (i / 8), from the
    least significant one *)
Fixpoint pack_lsb (n : nat) (l : list bool) : list Z :=
  match n with
  | O => []
  | S n' => fst (pack8 8 (rev (firstn 8 (l ++ repeat false 8)))) :: pack_lsb n' (skipn 8 l)
  end.
Definition shown (s : sent) : value :=
  match s with
  | SVal v => as_read v
  | SBits l => VBits (Some (mkBits (zlen l) (pack_lsb (Z.to_nat (bit_octets l)) l)))
  end.
(** "a single value as itself, several as a list" *)
Definition one_or_list (l : list value) : value := match l with [v] => v | _ => VList l end.

(** the whole property is addressed by leaving the array index out; the API
    spells that 0xFFFFFFFF *)
Definition whole : Z := 4294967295.
Definition spec_index (tag idx : Z) : list Z := if idx =? whole then [] else spec_ctx_unsigned tag idx.
Definition valid_property (p : Z) : Prop := 0 <= p <= 4194303.

(** 15.5 ReadProperty; the request header announces no segmentation and an
    APDU size of 1476 (code 5) *)
Definition spec_request (inv svc : Z) : list Z := spec_confirmed false false false 5 inv 0 0 svc.
Definition spec_reference (o : object_id) (p idx : Z) : list Z :=
  spec_ctx_oid 0 o ++ spec_ctx_unsigned 1 p ++ spec_index 2 idx.
Definition spec_read_request (inv : Z) (o : object_id) (p idx : Z) : list Z :=
  spec_request inv 12 ++ spec_reference o p idx.
Definition spec_read_ack (inv : Z) (o : object_id) (p idx : Z) (vs : list sent) : list Z :=
  spec_complex_ack inv 12 ++ spec_reference o p idx
  ++ spec_open 3 ++ flat_map spec_sent vs ++ spec_close 3.

(** 15.7 ReadPropertyMultiple *)
Definition spec_read_spec (o : object_id) (ps : list (Z * Z)) : list Z :=
  spec_ctx_oid 0 o ++ spec_open 1
  ++ flat_map (fun p => spec_ctx_unsigned 0 (fst p) ++ spec_index 1 (snd p)) ps ++ spec_close 1.
Definition spec_readmulti_request (inv : Z) (os : list (object_id * list (Z * Z))) : list Z :=
  spec_request inv 14 ++ flat_map (fun x => spec_read_spec (fst x) (snd x)) os.
(** one result: property, index, values *)
Record result := mkResult { rs_prop : Z; rs_index : Z; rs_values : list sent }.
Definition spec_result (r : result) : list Z :=
  spec_ctx_unsigned 2 (rs_prop r) ++ spec_index 3 (rs_index r)
  ++ spec_open 4 ++ flat_map spec_sent (rs_values r) ++ spec_close 4.
Definition spec_access (x : object_id * list result) : list Z :=
  spec_ctx_oid 0 (fst x) ++ spec_open 1 ++ flat_map spec_result (snd x) ++ spec_close 1.
Definition spec_readmulti_ack (inv : Z) (xs : list (object_id * list result)) : list Z :=
  spec_complex_ack inv 14 ++ flat_map spec_access xs.
Definition result_ok (r : result) : Prop :=
  in_u32 (rs_prop r) /\ in_u32 (rs_index r) /\ Forall supported (rs_values r).
Definition access_ok (x : object_id * list result) : Prop :=
  valid_oid (fst x) /\ snd x <> [] /\ Forall result_ok (snd x).
(** what the caller gets *)
Definition shown_result (r : result) : property :=
  mkProp (rs_prop r) (rs_index r) (one_or_list (map shown (rs_values r))) 0.
Definition shown_access (x : object_id * list result) : object :=
  mkObj [] [] (fst x) (map shown_result (snd x)).

(** 15.9 WriteProperty.  Priority 0 stands for "none given". *)
Definition spec_priority (tag prio : Z) : list Z := if prio =? 0 then [] else spec_ctx_unsigned tag prio.
(** the present value (85) of a binary output (4) or binary value (5) is an
    enumerated BACnetBinaryPV *)
Definition binary_pv (o : object_id) (p : Z) : bool :=
  ((oid_type o =? 4) || (oid_type o =? 5)) && (p =? 85).
Definition property_octets (o : object_id) (p : Z) (v : value) : list Z :=
  match v with
  | VUint n => if binary_pv o p then spec_app (VEnum n) else spec_app v
  | _ => spec_app v
  end.
Definition spec_write_request (inv : Z) (o : object_id) (p idx : Z) (v : value) (prio : Z) : list Z :=
  spec_request inv 15 ++ spec_reference o p idx
  ++ spec_open 3 ++ property_octets o p v ++ spec_close 3 ++ spec_priority 4 prio.

(** 15.10 WritePropertyMultiple *)
Record writing := mkWriting { wt_prop : Z; wt_index : Z; wt_value : value; wt_prio : Z }.
Definition spec_writing (o : object_id) (w : writing) : list Z :=
  spec_ctx_unsigned 0 (wt_prop w) ++ spec_index 1 (wt_index w)
  ++ spec_open 2 ++ property_octets o (wt_prop w) (wt_value w) ++ spec_close 2 ++ spec_priority 3 (wt_prio w).
Definition spec_write_spec (x : object_id * list writing) : list Z :=
  spec_ctx_oid 0 (fst x) ++ spec_open 1 ++ flat_map (spec_writing (fst x)) (snd x) ++ spec_close 1.
Definition spec_writemulti_request (inv : Z) (xs : list (object_id * list writing)) : list Z :=
  spec_request inv 16 ++ flat_map spec_write_spec xs.

(** values whose octets the library writes as the standard demands (C05, C06) *)
Definition conforming_value (v : value) : Prop := writable v /\ written_standard v.

(** a result that is a propertyAccessError (15.7.3.1) and the answer carrying it
    after the accesses [xs] and the results [rs] of object [o] *)
Record failure := mkFailure { fl_prop : Z; fl_index : Z; fl_class : Z; fl_code : Z }.
Definition spec_failure (x : failure) : list Z :=
  spec_ctx_unsigned 2 (fl_prop x) ++ spec_index 3 (fl_index x)
  ++ spec_open 5 ++ spec_app (VEnum (fl_class x)) ++ spec_app (VEnum (fl_code x)) ++ spec_close 5.
Definition failure_ok (x : failure) : Prop :=
  in_u32 (fl_prop x) /\ in_u32 (fl_index x) /\ in_u32 (fl_class x) /\ in_u32 (fl_code x).
Definition spec_failing_ack (inv : Z) (xs : list (object_id * list result)) (o : object_id) (rs : list result)
  (x : failure) (rest : list Z) : list Z :=
  spec_complex_ack inv 14 ++ flat_map spec_access xs
  ++ spec_ctx_oid 0 o ++ spec_open 1 ++ flat_map spec_result rs ++ spec_failure x ++ rest.
