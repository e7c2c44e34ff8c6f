(** C116-C117: answers to ReadPropertyMultiple written by the library, and date
    patterns.  No proofs here beyond citations. *)
From Verif Require Import ModelClient ModelMore SpecWire SpecCodec SpecLayers SpecServices SpecObs SpecMore ProofsServiceProps ProofsMore.

(** * C116: false *)
Definition ex_flag : object := mkObj [] [] (mkOid 3 1) [mkProp 85 whole (VBool true) 0].
Theorem c116_multi_ack_refuted : exists os bs, Forall sendable os /\ Forall writable (values_of os)
  /\ enc_ReadMultiplePropertyAck 7 (mkMPD os) newEncoder = ROk (mkEnc bs None, None)
  /\ bs <> std_answer 7 os
  /\ forall fuel d1, check_apdu (newDecoder bs) = (None, d1) -> forall d, dec_ReadMultiplePropertyAck fuel d1 <> Val (os, None) d.
Proof.
  exists [ex_flag], [48; 7; 14; 12; 0; 192; 0; 1; 30; 41; 85; 78; 1; 79; 1; 31].
  split; [|split; [|split; [|split]]].
  - repeat constructor; discriminate.
  - repeat constructor.
  - reflexivity.
  - vm_compute. discriminate.
  - intros fuel d1 E. injection E as <-. intro d. do 6 (destruct fuel as [|fuel]; [discriminate|]). vm_compute. discriminate.
Qed.
Print Assumptions c116_multi_ack_refuted.
(** what is written, for every list of objects whose values have a fixed size *)
Theorem c116_octets_exact_partial : forall inv os, is_byte inv -> Forall sendable os -> Forall (fun v => raw v <> None) (values_of os) ->
  enc_ReadMultiplePropertyAck inv (mkMPD os) newEncoder = ROk (mkEnc (doubled_answer inv os) None, None).
Proof. exact multi_ack_octets. Qed.
Print Assumptions c116_octets_exact_partial.
(** text, bit strings, dates, times and lists are refused *)
Theorem c116_refused_partial : forall inv os, is_byte inv -> Forall sendable os -> ~ In VNil (values_of os) ->
  Exists (fun v => raw v = None) (values_of os) ->
  exists bs, enc_ReadMultiplePropertyAck inv (mkMPD os) newEncoder = ROk (mkEnc bs (Some EInvalidType), Some EInvalidType).
Proof. exact multi_ack_refused. Qed.
Print Assumptions c116_refused_partial.
(** whatever follows the first value *)
Theorem c116_never_standard_partial : forall inv o os p ps, is_byte inv -> Forall sendable (o :: os) ->
  Forall (fun v => raw v <> None) (values_of (o :: os)) -> o_props o = p :: ps -> writable (pr_data p) ->
  exists bs, enc_ReadMultiplePropertyAck inv (mkMPD (o :: os)) newEncoder = ROk (mkEnc bs None, None)
  /\ bs <> std_answer inv (o :: os).
Proof. exact multi_ack_nonstandard. Qed.
Print Assumptions c116_never_standard_partial.
Example c116_ex : let a := mkObj [] [] (mkOid 0 1) [mkProp 85 whole (VReal 1117192192) 0; mkProp 87 3 VNull 0] in
  let b := mkObj [] [] (mkOid 0 2) [mkProp 77 whole (VString [65]) 0] in
  Forall sendable [a; b] /\ Forall (fun v => raw v <> None) (values_of [a; ex_flag])
  /\ Exists (fun v => raw v = None) (values_of [a; b])
  /\ doubled_answer 7 [a] = [48; 7; 14; 12; 0; 0; 0; 1; 30; 41; 85; 78; 66; 151; 0; 0; 79; 66; 151; 0; 0; 41; 87; 57; 3; 78; 79; 31]
  /\ std_answer 7 [a] = [48; 7; 14; 12; 0; 0; 0; 1; 30; 41; 85; 78; 68; 66; 151; 0; 0; 79; 41; 87; 57; 3; 78; 0; 79; 31].
Proof.
  cbv zeta. split; [|split; [|split; [|split; reflexivity]]].
  - repeat constructor; discriminate.
  - repeat constructor; discriminate.
  - right; right; left. reflexivity.
Qed.

(** * C117: false *)
Theorem c117_patterns_refuted : exists odd even, valid_date odd /\ valid_date even
  /\ std_day (d_day odd) = DOdd /\ std_day (d_day even) = DEven
  /\ IsOddDayOfMonth (d_day odd) = false /\ IsEvenDayOfMonth (d_day odd) = true
  /\ IsEvenDayOfMonth (d_day even) = false.
Proof.
  exists (mkDate 2021 1 33 255), (mkDate 2021 1 34 255). repeat split; try discriminate; right; split; discriminate || reflexivity.
Qed.
Print Assumptions c117_patterns_refuted.
(** for every date a device can send: both month patterns and the last day are
    told correctly, the last day also passes for odd, the odd days for even *)
Theorem c117_patterns_exact_partial : forall d rest, valid_date d -> exists r, reads (spec_app (VDate d) ++ rest) (VDate r) rest
  /\ (IsOddMonth (d_month r) = true <-> std_month (d_month d) = MOdd)
  /\ (IsEvenMonth (d_month r) = true <-> std_month (d_month d) = MEven)
  /\ (IsLastDayOfMonth (d_day r) = true <-> std_day (d_day d) = DLast)
  /\ (IsOddDayOfMonth (d_day r) = true <-> std_day (d_day d) = DLast)
  /\ (IsEvenDayOfMonth (d_day r) = true <-> std_day (d_day d) = DOdd).
Proof. exact date_patterns. Qed.
Print Assumptions c117_patterns_exact_partial.
Example c117_ex : valid_date (mkDate 2020 13 32 255) /\ spec_app (VDate (mkDate 2020 13 32 255)) = [164; 120; 13; 32; 255]
  /\ std_month 13 = MOdd /\ std_day 32 = DLast.
Proof. repeat split; try discriminate. right; split; discriminate || reflexivity. Qed.
