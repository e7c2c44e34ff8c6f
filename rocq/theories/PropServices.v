(** Properties C23-C34: ReadProperty, ReadPropertyMultiple, WriteProperty,
    WritePropertyMultiple. *)
From Verif Require Import ModelClient SpecWire SpecCodec SpecLayers SpecServices SpecObs ProofsServiceProps ProofsHang.

(** * C23 *)
Theorem c23_read_request : forall inv o p idx, is_byte inv -> valid_oid o -> valid_property p -> in_u32 idx ->
  enc_ReadProperty inv (request o p idx) newEncoder = ROk (mkEnc (spec_read_request inv o p idx) None, None)
  /\ exists a d1 d2, dec_APDU (newDecoder (spec_read_request inv o p idx)) = ((a, None), d1)
     /\ p_type a = 0 /\ p_invoke a = inv /\ p_service a = 12 /\ p_seg a = false
     /\ dec_ReadProperty (newDecoder (p_raw a)) = Val (Some (request o p idx), None) d2.
Proof. exact read_request. Qed.
Print Assumptions c23_read_request.
(** element 3 of the object list of device 2100003, and the whole list *)
Example c23_ex : valid_oid (mkOid 8 2100003) /\ valid_property 76
  /\ spec_read_request 7 (mkOid 8 2100003) 76 3 = [0; 5; 7; 12; 12; 2; 32; 11; 35; 25; 76; 41; 3]
  /\ spec_read_request 7 (mkOid 8 2100003) 76 whole = [0; 5; 7; 12; 12; 2; 32; 11; 35; 25; 76].
Proof. unfold valid_oid, valid_property. cbn. repeat split; discriminate. Qed.

(** * C24 *)
Theorem c24_read_ack_decoding : forall inv o p idx vs, valid_oid o -> in_u32 p -> in_u32 idx -> Forall supported vs ->
  rp_accepts (spec_read_ack inv o p idx vs) (answer o p idx (one_or_list (map shown vs))).
Proof. exact read_ack. Qed.
Print Assumptions c24_read_ack_decoding.
Example c24_ex : let vs := [SVal (VReal 1117126656); SVal (VString [72; 105]); SBits [true; false; true]] in
  Forall supported vs
  /\ spec_read_ack 7 (mkOid 0 1) 85 whole vs
     = [48; 7; 12; 12; 0; 0; 0; 1; 25; 85; 62; 68; 66; 150; 0; 0; 115; 0; 72; 105; 130; 5; 160; 63]
  /\ one_or_list (map shown vs) = VList [VReal 1117126656; VString [72; 105]; VBits (Some (mkBits 3 [5]))].
Proof.
  cbn. split; [|split; reflexivity]. repeat constructor; try discriminate.
Qed.

(** * C25: false for the integers of C06; true of exactly all other writable values. *)
Theorem c25_ack_round_trip_refuted : exists inv o p idx v bs, is_byte inv /\ valid_oid o /\ valid_property p /\ in_u32 idx
  /\ writable v /\ enc_ReadPropertyAck inv (answer o p idx v) newEncoder = ROk (mkEnc bs None, None)
  /\ ~ rp_accepts bs (answer o p idx (as_read v)).
Proof.
  exists 1, (mkOid 0 1), 85, whole, (VInt 200).
  assert (A : is_byte 1 /\ valid_oid (mkOid 0 1) /\ valid_property 85 /\ in_u32 whole /\ writable (VInt 200)).
  { unfold is_byte, valid_oid, valid_property, in_u32, whole, writable, in_i32. cbn. repeat split; discriminate. }
  destruct A as (A1 & A2 & A3 & A4 & A5).
  destruct (ack_round_iff 1 (mkOid 0 1) 85 whole (VInt 200) A1 A2 A3 A4 A5) as (bs & E & H).
  exists bs. repeat (split; [assumption|]). intro C. apply H with (n := 200) in C; [|reflexivity]. apply C. left. split; [discriminate|reflexivity].
Qed.
Print Assumptions c25_ack_round_trip_refuted.
Theorem c25_ack_round_trip_exact_partial : forall inv o p idx v, is_byte inv -> valid_oid o -> valid_property p -> in_u32 idx ->
  writable v ->
  exists bs, enc_ReadPropertyAck inv (answer o p idx v) newEncoder = ROk (mkEnc bs None, None)
  /\ (rp_accepts bs (answer o p idx (as_read v))
      <-> forall n, v = VInt n -> ~ (128 <= n < 256 \/ 32768 <= n < 65536)).
Proof. exact ack_round_iff. Qed.
Print Assumptions c25_ack_round_trip_exact_partial.
Example c25_ex : writable (VString [111; 107]) /\ (forall n, VString [111; 107] = VInt n -> ~ (128 <= n < 256 \/ 32768 <= n < 65536)).
Proof. split; [|discriminate]. split; [repeat constructor; discriminate|reflexivity]. Qed.

(** * C26: false for every value: the list is opened with tag 3 and closed with
    tag 4.  For values written as the standard demands that last octet is the
    only difference. *)
Theorem c26_ack_conforms_refuted : forall inv o p idx v, is_byte inv -> valid_oid o -> valid_property p -> in_u32 idx ->
  writable v ->
  exists bs, enc_ReadPropertyAck inv (answer o p idx v) newEncoder = ROk (mkEnc bs None, None)
  /\ bs <> spec_read_ack inv o p idx [SVal v]
  /\ (written_standard v -> exists body, bs = body ++ [79] /\ spec_read_ack inv o p idx [SVal v] = body ++ [63]).
Proof. exact ack_never_standard. Qed.
Print Assumptions c26_ack_conforms_refuted.
Example c26_ex : enc_ReadPropertyAck 9 (answer (mkOid 0 1) 85 whole (VUint 5)) newEncoder
  = ROk (mkEnc [48; 9; 12; 12; 0; 0; 0; 1; 25; 85; 62; 33; 5; 79] None, None)
  /\ spec_read_ack 9 (mkOid 0 1) 85 whole [SVal (VUint 5)] = [48; 9; 12; 12; 0; 0; 0; 1; 25; 85; 62; 33; 5; 63].
Proof. split; reflexivity. Qed.

(** * C27 *)
Theorem c27_read_decoding_terminates : forall b, dec_ReadProperty (newDecoder b) <> Fuel
  /\ dec_ReadProperty (snd (check_apdu (newDecoder b))) <> Fuel.
Proof. exact read_terminates. Qed.
Print Assumptions c27_read_decoding_terminates.
(** garbage on which the value loop runs twice before it fails *)
Example c27_ex : exists d, dec_ReadProperty (newDecoder [12; 0; 0; 0; 1; 25; 85; 62; 33; 5; 33; 7; 219; 1; 2]) = Val (None, Some (EUnsupportedTag 13)) d.
Proof. eexists. reflexivity. Qed.

(** * C28 *)
Theorem c28_readmulti_request : forall inv xs, is_byte inv ->
  Forall (fun x => valid_oid (fst x) /\ Forall (fun p => in_u32 (fst p) /\ in_u32 (snd p)) (snd x)) xs ->
  enc_ReadMultipleProperty inv (mkMPD (map read_object xs)) newEncoder
  = ROk (mkEnc (spec_readmulti_request inv xs) None, None).
Proof. exact readmulti_request. Qed.
Print Assumptions c28_readmulti_request.
Example c28_ex : spec_readmulti_request 3 [(mkOid 0 1, [(85, whole); (87, 8)]); (mkOid 8 5, [(77, whole)])]
  = [0; 5; 3; 14; 12; 0; 0; 0; 1; 30; 9; 85; 9; 87; 25; 8; 31; 12; 2; 0; 0; 5; 30; 9; 77; 31].
Proof. reflexivity. Qed.

(** * C29 *)
Theorem c29_readmulti_ack_decoding : forall inv xs, Forall access_ok xs ->
  rpm_accepts (spec_readmulti_ack inv xs) (map shown_access xs).
Proof. exact readmulti_ack. Qed.
Print Assumptions c29_readmulti_ack_decoding.
Definition ex_access : list (object_id * list result) :=
  [(mkOid 0 1, [mkResult 85 whole [SVal (VReal 1117126656)]; mkResult 87 8 [SVal VNull]]);
   (mkOid 8 5, [mkResult 76 whole [SVal (VOid (mkOid 8 5)); SVal (VOid (mkOid 0 1))]])].
Example c29_ex : Forall access_ok ex_access
  /\ spec_readmulti_ack 3 ex_access
     = [48; 3; 14; 12; 0; 0; 0; 1; 30; 41; 85; 78; 68; 66; 150; 0; 0; 79; 41; 87; 57; 8; 78; 0; 79; 31;
        12; 2; 0; 0; 5; 30; 41; 76; 78; 196; 2; 0; 0; 5; 196; 0; 0; 0; 1; 79; 31]
  /\ map shown_access ex_access
     = [mkObj [] [] (mkOid 0 1) [mkProp 85 whole (VReal 1117126656) 0; mkProp 87 8 VNull 0];
        mkObj [] [] (mkOid 8 5) [mkProp 76 whole (VList [VOid (mkOid 8 5); VOid (mkOid 0 1)]) 0]].
Proof.
  split; [|split; reflexivity].
  repeat constructor; try discriminate.
Qed.

(** * C30: false.  An answer that ends inside a list of values keeps the decoder
    in its value loop for ever, whatever came before in that list. *)
Theorem c30_readmulti_ack_terminates_refuted : exists bs, rpm_hangs bs.
Proof.
  exists (cut_ack 1 (mkOid 0 1) 85 [SVal VNull]).
  apply cut_hangs; [unfold valid_oid; cbn; repeat split; discriminate|split; [discriminate|reflexivity]|discriminate|repeat constructor].
Qed.
Print Assumptions c30_readmulti_ack_terminates_refuted.
Theorem c30_cut_ack_hangs_partial : forall inv o p vs, valid_oid o -> in_u32 p -> vs <> [] -> Forall supported vs ->
  rpm_hangs (cut_ack inv o p vs).
Proof. exact cut_hangs. Qed.
Print Assumptions c30_cut_ack_hangs_partial.
(** Beyond that there is no third case: with one round per octet of the answer the
    decoder is done, or it never is. *)
Theorem c30_hangs_or_ends_partial : forall bs d1, check_apdu (newDecoder bs) = (None, d1) ->
  (forall fuel, dec_ReadMultiplePropertyAck fuel d1 = Fuel)
  \/ exists r, r <> Fuel /\ forall fuel, (length bs <= fuel)%nat -> dec_ReadMultiplePropertyAck fuel d1 = r.
Proof. exact rpm_hangs_or_ends. Qed.
Print Assumptions c30_hangs_or_ends_partial.
(** both occur: a closing tag 3 among the values is read again for ever, while the
    same octets with closing tag 4 are an answer *)
Example c30_ends_ex : rpm_hangs [48; 1; 14; 12; 0; 0; 0; 1; 30; 41; 85; 78; 0; 63; 31]
  /\ exists d2, check_apdu (newDecoder [48; 1; 14; 12; 0; 0; 0; 1; 30; 41; 85; 78; 0; 79; 31])
                = (None, mkDec [12; 0; 0; 0; 1; 30; 41; 85; 78; 0; 79; 31] (Some 14) None)
     /\ dec_ReadMultiplePropertyAck 15 (mkDec [12; 0; 0; 0; 1; 30; 41; 85; 78; 0; 79; 31] (Some 14) None)
        = Val ([mkObj [] [] (mkOid 0 1) [mkProp 85 whole VNull 0]], None) d2.
Proof.
  split; [|exists (mkDec [] (Some 31) None); split; vm_compute; reflexivity].
  assert (E : check_apdu (newDecoder [48; 1; 14; 12; 0; 0; 0; 1; 30; 41; 85; 78; 0; 63; 31])
              = (None, mkDec [12; 0; 0; 0; 1; 30; 41; 85; 78; 0; 63; 31] (Some 14) None)) by (vm_compute; reflexivity).
  exists (mkDec [12; 0; 0; 0; 1; 30; 41; 85; 78; 0; 63; 31] (Some 14) None). split; [exact E|].
  destruct (rpm_hangs_or_ends _ _ E) as [H|(r & H1 & H2)]; [exact H|]. exfalso. apply H1.
  rewrite <- (H2 15%nat (le_n _)). vm_compute. reflexivity.
Qed.
Example c30_ex : cut_ack 1 (mkOid 0 1) 85 [SVal (VReal 1117126656)]
  = [48; 1; 14; 12; 0; 0; 0; 1; 30; 41; 85; 78; 68; 66; 150; 0; 0].
Proof. reflexivity. Qed.

(** * C31: false (values of C07, crash of C34); exactly these fail. *)
Theorem c31_write_request_refuted : exists inv o p idx v prio, is_byte inv /\ valid_oid o /\ valid_property p /\ in_u32 idx
  /\ is_byte prio /\ writable v
  /\ enc_WriteProperty inv (write_of o p idx v prio) newEncoder <> ROk (mkEnc (spec_write_request inv o p idx v prio) None, None).
Proof.
  exists 1, (mkOid 1 1), 85, whole, (VDouble 1), 8.
  repeat split; try discriminate; try reflexivity.
Qed.
Print Assumptions c31_write_request_refuted.
Theorem c31_write_request_exact_partial : forall inv o p idx v prio, is_byte inv -> valid_oid o -> valid_property p -> in_u32 idx ->
  is_byte prio -> writable v ->
  (enc_WriteProperty inv (write_of o p idx v prio) newEncoder = ROk (mkEnc (spec_write_request inv o p idx v prio) None, None)
   <-> written_standard v /\ (binary_pv o p = true -> v = VNull \/ exists n, v = VUint n)).
Proof. exact write_request_iff. Qed.
Print Assumptions c31_write_request_exact_partial.
(** binary output present value, relinquish-able priority 8; and an analog output *)
Example c31_ex : written_standard (VUint 1) /\ binary_pv (mkOid 4 2) 85 = true
  /\ spec_write_request 6 (mkOid 4 2) 85 whole (VUint 1) 8 = [0; 5; 6; 15; 12; 1; 0; 0; 2; 25; 85; 62; 145; 1; 63; 73; 8]
  /\ spec_write_request 6 (mkOid 1 2) 85 whole (VReal 1117126656) 16
     = [0; 5; 6; 15; 12; 0; 64; 0; 2; 25; 85; 62; 68; 66; 150; 0; 0; 63; 73; 16].
Proof. repeat split; reflexivity. Qed.

(** * C32: false: a priority is written with context tag 2 instead of 3. *)
Theorem c32_writemulti_request_refuted : exists inv xs, is_byte inv
  /\ Forall (fun x => valid_oid (fst x) /\ Forall writing_ok (snd x)) xs
  /\ enc_WriteMultiProperty inv (mkMPD (map write_object xs)) newEncoder
     <> ROk (mkEnc (spec_writemulti_request inv xs) None, None).
Proof.
  exists 1, [(mkOid 1 1, [mkWriting 85 whole (VReal 1117126656) 8])].
  split; [split; [discriminate|reflexivity]|]. split; [|discriminate].
  repeat constructor; try discriminate.
Qed.
Print Assumptions c32_writemulti_request_refuted.
Theorem c32_writemulti_octets_exact_partial : forall inv xs hdr, is_byte inv ->
  Forall (fun x => valid_oid (fst x) /\ Forall writing_ok (snd x)) xs ->
  enc_WriteMultiProperty inv (mkMPD (map write_object xs)) (mkEnc hdr None)
  = ROk (mkEnc (hdr ++ spec_request inv 16 ++ flat_map lib_write_spec xs) None, None).
Proof. exact enc_writemulti. Qed.
Print Assumptions c32_writemulti_octets_exact_partial.
Theorem c32_writemulti_request_partial : forall inv xs, is_byte inv ->
  Forall (fun x => valid_oid (fst x) /\ Forall writing_ok (snd x) /\ Forall (plain_writing (fst x)) (snd x)) xs ->
  enc_WriteMultiProperty inv (mkMPD (map write_object xs)) newEncoder = ROk (mkEnc (spec_writemulti_request inv xs) None, None).
Proof. exact writemulti_plain. Qed.
Print Assumptions c32_writemulti_request_partial.
Example c32_ex : let x := (mkOid 1 2, [mkWriting 85 whole (VReal 1117126656) 0; mkWriting 81 3 (VBool true) 0]) in
  valid_oid (fst x) /\ Forall writing_ok (snd x) /\ Forall (plain_writing (fst x)) (snd x)
  /\ spec_writemulti_request 6 [x] = [0; 5; 6; 16; 12; 0; 64; 0; 2; 30; 9; 85; 46; 68; 66; 150; 0; 0; 47; 9; 81; 25; 3; 46; 17; 47; 31].
Proof.
  cbv zeta. split; [unfold valid_oid; cbn; repeat split; discriminate|]. split; [repeat constructor; try discriminate|].
  split; [|reflexivity]. repeat constructor; cbn; try discriminate.
Qed.

(** * C33: false.  With an object type above 1023 or a property above 4194303 the
    single services transmit a request that names no object at all; the multiple
    services address the object whose identifier is the truncated one. *)
Theorem c33_invalid_refused_refuted : exists e me dev rp, 1023 < oid_type (o_id (pd_object rp))
  /\ o_props (pd_object rp) <> [] /\ fst (ReadProperty e me dev rp) <> [] /\ fst (WriteProperty e me dev rp) <> [].
Proof.
  exists (mkEnv (Some 1) (fun _ _ => mkAtt true None)), None, (mkDev (mkOid 8 1) 1476 (mkAddr 0 0 6 [10; 0; 0; 1; 186; 192] [])),
    (request (mkOid 5000 1) 85 whole).
  repeat split; discriminate.
Qed.
Print Assumptions c33_invalid_refused_refuted.
Theorem c33_invalid_read_exact_partial : forall e me dev ip port id, ev_id e = Some id -> routable dev ip port -> exists hdr,
  enc_NPDU (request_npdu (addr_SetLength (dv_addr dev)) me) newEncoder = ROk (mkEnc hdr None)
  /\ forall o p ps nm ds, 1023 < oid_type o \/ 4194303 < pr_type p ->
  fst (ReadProperty e me dev (mkPD (mkObj nm ds o (p :: ps))))
  = [mkDgram ip port (send_frame (addr_SetLength (dv_addr dev)) (hdr ++ spec_request (u8 id) 12) None)].
Proof. exact invalid_read_sent. Qed.
Print Assumptions c33_invalid_read_exact_partial.
Theorem c33_invalid_write_exact_partial : forall e me dev ip port id, ev_id e = Some id -> routable dev ip port -> exists hdr,
  enc_NPDU (request_npdu (addr_SetLength (dv_addr dev)) me) newEncoder = ROk (mkEnc hdr None)
  /\ forall o p ps nm ds, 1023 < oid_type o \/ 4194303 < pr_type p -> exists rest,
  fst (WriteProperty e me dev (mkPD (mkObj nm ds o (p :: ps))))
  = mkDgram ip port (send_frame (addr_SetLength (dv_addr dev)) (hdr ++ spec_request (u8 id) 15) None) :: rest.
Proof. exact invalid_write_sent. Qed.
Print Assumptions c33_invalid_write_exact_partial.
Theorem c33_multiple_services_alias_partial : forall fuel e me dev os,
  Forall (fun o => 0 <= oid_type (o_id o) /\ 0 <= oid_inst (o_id o)) os ->
  ReadMultiProperty fuel e me dev (mkMPD os) = ReadMultiProperty fuel e me dev (mkMPD (map alias os))
  /\ WriteMultiProperty e me dev (mkMPD os) = WriteMultiProperty e me dev (mkMPD (map alias os)).
Proof. exact multi_alias. Qed.
Print Assumptions c33_multiple_services_alias_partial.
Example c33_ex :
  fst (ReadProperty (mkEnv (Some 1) (fun _ _ => mkAtt true None)) None (mkDev (mkOid 8 1) 1476 (mkAddr 0 0 6 [10; 0; 0; 1; 186; 192] []))
    (request (mkOid 5000 1) 85 whole)) = [mkDgram [10; 0; 0; 1] 47808 [129; 10; 0; 10; 1; 4; 0; 5; 1; 12]]
  /\ alias (mkObj [] [] (mkOid 1026 5) []) = mkObj [] [] (mkOid 2 5) [].
Proof. split; reflexivity. Qed.

(** * C34: false for the present value of binary outputs and values, where every
    value but a uint32 (or null) crashes the call, the enumerated ones included.
    Elsewhere unsupported values are refused and nothing is sent. *)
Theorem c34_unwritable_refused_refuted : exists e me dev wp, WriteProperty e me dev wp = ([], CPanic)
  /\ valid_oid (o_id (pd_object wp)) /\ exists p, o_props (pd_object wp) = [p] /\ valid_property (pr_type p) /\ unsupported_type (pr_data p).
Proof.
  exists (mkEnv (Some 1) (fun _ _ => mkAtt true None)), None, (mkDev (mkOid 8 1) 1476 (mkAddr 0 0 6 [10; 0; 0; 1; 186; 192] [])),
    (write_of (mkOid 4 1) 85 whole (VOther 0) 0).
  split; [reflexivity|]. split; [unfold valid_oid; cbn; repeat split; discriminate|].
  eexists. split; [reflexivity|]. split; [unfold valid_property; cbn; split; discriminate|exact I].
Qed.
Print Assumptions c34_unwritable_refused_refuted.
Theorem c34_binary_point_crash_exact_partial : forall e me dev id o p idx v prio, ev_id e = Some id -> valid_oid o -> valid_property p ->
  in_u32 idx -> binary_pv o p = true -> v <> VNull -> (forall n, v <> VUint n) ->
  WriteProperty e me dev (write_of o p idx v prio) = ([], CPanic).
Proof. exact binary_write_crashes. Qed.
Print Assumptions c34_binary_point_crash_exact_partial.
Theorem c34_unwritable_refused_partial : forall e me dev id o p idx v prio, ev_id e = Some id -> valid_oid o -> valid_property p ->
  in_u32 idx -> unsupported_type v -> binary_pv o p = false ->
  WriteProperty e me dev (write_of o p idx v prio) = ([], CErr (CEnc EUnknownType)).
Proof. exact unsupported_refused. Qed.
Print Assumptions c34_unwritable_refused_partial.
Theorem c34_writemulti_refused_partial : forall e me dev id os, ev_id e = Some id ->
  Exists (fun o => Exists (fun p => unsupported_type (pr_data p)) (o_props o)) os ->
  exists x, WriteMultiProperty e me dev (mkMPD os) = ([], CErr (CEnc x)).
Proof. exact multi_unsupported_refused. Qed.
Print Assumptions c34_writemulti_refused_partial.
Example c34_ex : unsupported_type (VDate (mkDate 2024 1 1 1)) /\ binary_pv (mkOid 17 1) 85 = false /\ binary_pv (mkOid 5 9) 85 = true
  /\ VEnum 1 <> VNull /\ forall n, VEnum 1 <> VUint n.
Proof. repeat split; discriminate. Qed.
