(** What the service properties observe: payloads accepted by the client's
    decoders, requests built from their parts, and the octets the library writes
    where they differ from the standard. *)
From Verif Require Import ModelClient SpecWire SpecLayers SpecServices.

(** the client accepts the payload [bs] as a ReadProperty answer and returns [out] *)
Definition rp_accepts (bs : list Z) (out : property_data) : Prop :=
  exists d1 d2, check_apdu (newDecoder bs) = (None, d1)
  /\ dec_ReadProperty d1 = Val (Some out, None) d2 /\ derr d2 = None.
(** the same for ReadPropertyMultiple, for every large enough amount of fuel *)
Definition rpm_accepts (bs : list Z) (out : list object) : Prop :=
  exists d1, check_apdu (newDecoder bs) = (None, d1)
  /\ forall fuel, (length bs <= fuel)%nat -> exists d2, dec_ReadMultiplePropertyAck fuel d1 = Val (out, None) d2.
(** the decoder of ReadPropertyMultiple answers never returns on payload [bs] *)
Definition rpm_hangs (bs : list Z) : Prop :=
  exists d1, check_apdu (newDecoder bs) = (None, d1)
  /\ forall fuel, dec_ReadMultiplePropertyAck fuel d1 = Fuel.
Definition request (o : object_id) (p idx : Z) : property_data := mkPD (mkObj [] [] o [mkProp p idx VNil 0]).
Definition answer (o : object_id) (p idx : Z) (v : value) : property_data := mkPD (mkObj [] [] o [mkProp p idx v 0]).
Definition lib_ack (inv : Z) (o : object_id) (p idx : Z) (v : value) : list Z :=
  spec_complex_ack inv 12 ++ spec_reference o p idx ++ spec_open 3 ++ app_written v ++ spec_close 4.
Definition read_object (x : object_id * list (Z * Z)) : object :=
  mkObj [] [] (fst x) (map (fun p => mkProp (fst p) (snd p) VNil 0) (snd x)).
Definition cut_ack (inv : Z) (o : object_id) (p : Z) (vs : list sent) : list Z :=
  spec_complex_ack inv 14 ++ spec_ctx_oid 0 o ++ spec_open 1 ++ spec_ctx_unsigned 2 p ++ spec_open 4 ++ flat_map spec_sent vs.
Definition write_of (o : object_id) (p idx : Z) (v : value) (prio : Z) : property_data :=
  mkPD (mkObj [] [] o [mkProp p idx v prio]).
Definition lib_value (bin : bool) (v : value) : list Z :=
  match v with VUint n => if bin then spec_app (VEnum n) else spec_app v | _ => app_written v end.
Definition lib_write (inv : Z) (o : object_id) (p idx : Z) (v : value) (prio : Z) : list Z :=
  spec_request inv 15 ++ spec_reference o p idx ++ spec_open 3 ++ lib_value (binary_pv o p) v ++ spec_close 3 ++ spec_priority 4 prio.
Definition write_object (x : object_id * list writing) : object :=
  mkObj [] [] (fst x) (map (fun w => mkProp (wt_prop w) (wt_index w) (wt_value w) (wt_prio w)) (snd x)).
Definition writing_ok (w : writing) : Prop :=
  in_u32 (wt_prop w) /\ in_u32 (wt_index w) /\ writable (wt_value w) /\ is_byte (wt_prio w).
Definition lib_writing (w : writing) : list Z :=
  spec_ctx_unsigned 0 (wt_prop w) ++ spec_index 1 (wt_index w)
  ++ spec_open 2 ++ app_written (wt_value w) ++ spec_close 2 ++ spec_priority 2 (wt_prio w).
Definition lib_write_spec (x : object_id * list writing) : list Z :=
  spec_ctx_oid 0 (fst x) ++ spec_open 1 ++ flat_map lib_writing (snd x) ++ spec_close 1.
(** no priority, standard values, no unsigned present value of a binary point *)
Definition plain_writing (o : object_id) (w : writing) : Prop :=
  wt_prio w = 0 /\ written_standard (wt_value w)
  /\ (binary_pv o (wt_prop w) = true -> forall n, wt_value w <> VUint n).
Definition routable (dev : device) (ip : list Z) (port : Z) : Prop := addr_UDPAddr (dv_addr dev) = Some (ip, port).
(** the multiple services truncate the identifier instead *)
Definition alias (o : object) : object :=
  mkObj (o_name o) (o_desc o) (mkOid (oid_type (o_id o) mod 1024) (oid_inst (o_id o) mod 4194304)) (o_props o).
Definition unsupported_type (v : value) : Prop :=
  match v with VNull | VBool _ | VUint _ | VInt _ | VReal _ | VDouble _ | VString _ | VEnum _ | VOid _ => False | _ => True end.
