(** Properties C02 (tagged) and C13-C22: context-tagged numbers, frame headers, I-Am, Who-Is, router lists, error PDUs. *)
From Verif Require Import ModelClient SpecWire SpecLayers ProofsLayers ProofsLayerProps.

(** * C02, with the tag header: the length announced is the minimal one *)
Theorem c02_tagged_round_trip : forall num v rest, 0 <= num < 256 -> 0 <= v < 2 ^ 32 ->
  exists n meta d1 d2, (1 <= n <= 4)%nat /\ v < 256 ^ Z.of_nat n /\ (n = 1%nat \/ 256 ^ (Z.of_nat n - 1) <= v)
  /\ contextUnsigned num v newEncoder = mkEnc (spec_tag 1 num (Z.of_nat n) ++ octets n v) None
  /\ contextEnumerated num v newEncoder = mkEnc (spec_tag 1 num (Z.of_nat n) ++ octets n v) None
  /\ tagNumberAndValue (newDecoder ((spec_tag 1 num (Z.of_nat n) ++ octets n v) ++ rest)) = ((num, meta, Z.of_nat n), d1)
  /\ dec_unsigned (Z.of_nat n) d1 = (v, d2) /\ dbuf d2 = rest /\ derr d2 = None.
Proof. exact tagged_round. Qed.
Print Assumptions c02_tagged_round_trip.
Example c02_tagged_ex : contextUnsigned 0 256 newEncoder = mkEnc [10; 1; 0] None /\ contextEnumerated 9 85 newEncoder = mkEnc [153; 85] None.
Proof. split; reflexivity. Qed.

(** * C13 *)
Theorem c13_bvlc_round_trip : forall t f l payload, is_byte t -> is_byte f -> 0 <= l < 65536 -> exists d,
  enc_BVLC (mkBvlc t f l payload) newEncoder = mkEnc ([t; f] ++ octets 2 l ++ payload) None
  /\ dec_BVLC (newDecoder ([t; f] ++ octets 2 l ++ payload)) = (mkBvlc t f l [], d)
  /\ dbuf d = payload /\ derr d = None.
Proof. exact bvlc_round. Qed.
Print Assumptions c13_bvlc_round_trip.
Theorem c13_frame_length_field : forall dest data bt, (forall b, bt = Some b -> is_byte (sb_func b)) ->
  zlen data <= 65531 -> exists d,
  let f := send_frame dest data bt in
  f = spec_bvlc (send_func dest bt) data
  /\ dec_BVLC (newDecoder f) = (mkBvlc 129 (send_func dest bt) (zlen f) [], d)
  /\ dbuf d = data /\ derr d = None.
Proof. exact frame_length. Qed.
Print Assumptions c13_frame_length_field.
Example c13_ex : send_frame (mkAddr 0 0 6 [192; 168; 1; 2; 186; 192] []) [1; 4; 0] None = [129; 10; 0; 7; 1; 4; 0].
Proof. reflexivity. Qed.

(** * C14 *)
Theorem c14_npdu_round_trip : forall n rest, npdu_ok n ->
  (n_netmsg n = true -> n_msgtype n <> 128 /\ n_msgtype n <> 1 /\ n_msgtype n <> 19) -> exists d,
  enc_NPDU n newEncoder = ROk (mkEnc (spec_npdu n) None)
  /\ dec_NPDU (newDecoder (spec_npdu n ++ rest)) = ((npdu_seen n, [], None), d)
  /\ dbuf d = rest /\ derr d = None.
Proof. exact npdu_round. Qed.
Print Assumptions c14_npdu_round_trip.
(** a routed proprietary network message with two-byte station address *)
Definition ex_npdu : npdu :=
  mkNpdu 1 (Some (mkAddr 2001 2 6 [10; 0; 0; 1; 186; 192] [7; 9])) (Some (mkAddr 5 0 0 [] [])) 513 true 200 true 2 254.
Example c14_ex : npdu_ok ex_npdu
  /\ spec_npdu ex_npdu = [1; 174; 7; 209; 2; 7; 9; 0; 5; 0; 254; 200; 2; 1].
Proof.
  split; [|reflexivity]. unfold npdu_ok, ex_npdu, addr_ok, is_bytes, is_byte; cbn.
  repeat split; try discriminate; repeat constructor; discriminate.
Qed.

(** * C15: false.  Message type 0x80 is written with a vendor id that the reader
    leaves in the buffer; a priority byte with bit 5 or 3 set can crash the
    writer. *)
Theorem c15_message_type_and_priority_refuted :
  (exists n rest m d, npdu_ok n /\ enc_NPDU n newEncoder = ROk (mkEnc (spec_npdu n) None)
     /\ dec_NPDU (newDecoder (spec_npdu n ++ rest)) = ((m, [], None), d)
     /\ n_vendor m <> n_vendor n /\ dbuf d <> rest)
  /\ (exists n, is_byte (n_prio n) /\ enc_NPDU n newEncoder = RPanic).
Proof.
  split.
  - exists (mkNpdu 1 None None 260 true 128 false 0 0), [].
    destruct (npdu_round_80 (mkNpdu 1 None None 260 true 128 false 0 0) []) as (m & d & E1 & E2 & E3 & E4);
      try reflexivity; [unfold npdu_ok, is_byte; cbn; repeat split; try discriminate|].
    exists m, d. split; [unfold npdu_ok, is_byte; cbn; repeat split; try discriminate|].
    split; [exact E1|]. split; [exact E2|]. rewrite E3, E4. split; discriminate.
  - exists (mkNpdu 1 None None 0 false 0 false 32 0). split; [split; [discriminate|reflexivity]|reflexivity].
Qed.
Print Assumptions c15_message_type_and_priority_refuted.
Theorem c15_type_80_exact_partial : forall n rest, npdu_ok n -> n_netmsg n = true -> n_msgtype n = 128 -> exists m d,
  enc_NPDU n newEncoder = ROk (mkEnc (spec_npdu n) None)
  /\ dec_NPDU (newDecoder (spec_npdu n ++ rest)) = ((m, [], None), d)
  /\ n_vendor m = 0 /\ dbuf d = octets 2 (n_vendor n) ++ rest.
Proof. exact npdu_round_80. Qed.
Print Assumptions c15_type_80_exact_partial.
Theorem c15_crash_exact_partial : forall n,
  enc_NPDU n newEncoder = RPanic <->
  (n_dest n = None /\ Z.testbit (n_prio n) 5 = true) \/ (n_src n = None /\ Z.testbit (n_prio n) 3 = true).
Proof. exact npdu_panic_iff. Qed.
Print Assumptions c15_crash_exact_partial.

(** * C16 *)
Theorem c16_confirmed_header_round_trip : forall a w, p_type a = pduConfirmed ->
  is_byte (p_invoke a) -> is_byte (p_seq a) -> is_byte (p_window a) -> is_byte (p_service a) ->
  In (p_maxapdu a) apdu_sizes -> exists bs r d,
  enc_APDU a newEncoder = (mkEnc bs None, None)
  /\ dec_APDU (newDecoder (bs ++ w)) = ((r, None), d)
  /\ p_type r = p_type a /\ p_seg r = p_seg a /\ p_more r = p_more a /\ p_segacc r = p_segacc a
  /\ p_invoke r = p_invoke a /\ p_service r = p_service a /\ p_maxapdu r = p_maxapdu a
  /\ (1 <= p_maxsegs a -> p_maxsegs r <= p_maxsegs a)
  /\ (p_seg a = true -> p_seq r = p_seq a /\ p_window r = p_window a)
  /\ p_raw r = w.
Proof. exact confirmed_round. Qed.
Print Assumptions c16_confirmed_header_round_trip.
Theorem c16_unconfirmed_header_round_trip : forall svc w, is_byte svc -> exists bs r d,
  enc_APDU (mkApdu pduUnconfirmed false false false 0 0 0 0 0 0 svc 0 0 []) newEncoder = (mkEnc bs None, None)
  /\ dec_APDU (newDecoder (bs ++ w)) = ((r, None), d)
  /\ p_type r = pduUnconfirmed /\ p_uservice r = svc /\ p_raw r = w.
Proof. exact unconfirmed_round. Qed.
Print Assumptions c16_unconfirmed_header_round_trip.
Theorem c16_complex_ack_header_round_trip : forall inv svc w, is_byte inv -> is_byte svc -> exists bs r d,
  enc_APDU (mkApdu pduComplexAck false false false 0 0 inv 0 0 svc 0 0 0 []) newEncoder = (mkEnc bs None, None)
  /\ dec_APDU (newDecoder (bs ++ w)) = ((r, None), d)
  /\ p_type r = pduComplexAck /\ p_seg r = false /\ p_invoke r = inv /\ p_service r = svc
  /\ dbuf d = w /\ derr d = None.
Proof. exact complex_round. Qed.
Print Assumptions c16_complex_ack_header_round_trip.
Example c16_ex : enc_APDU (mkApdu 0 true false true 64 1024 9 2 16 12 0 0 0 []) newEncoder
                 = (mkEnc [10; 100; 9; 2; 16; 12] None, None).
Proof. reflexivity. Qed.

(** * C17 *)
Theorem c17_advertised_sizes : forall segs size, In size apdu_sizes ->
  let octet := encodeMaxSegsMaxApdu segs size in
  decodeMaxApdu octet = size
  /\ (1 <= segs -> decodeMaxSegs octet <= segs)
  /\ (segs <= 0 -> octet / 16 = 0).
Proof. exact sizes_standard. Qed.
Print Assumptions c17_advertised_sizes.
Example c17_ex : encodeMaxSegsMaxApdu 17 480 = 67 /\ decodeMaxSegs 67 = 16.
Proof. split; reflexivity. Qed.

(** * C18: false.  A size between two standard ones is rounded up, a size above
    1476 is advertised as 50. *)
Theorem c18_never_advertises_more_refuted :
  (exists size, 50 <= size /\ decodeMaxApdu (encodeMaxSegsMaxApdu 1 size) > size)
  /\ (exists size, size > 1476 /\ decodeMaxApdu (encodeMaxSegsMaxApdu 1 size) = 50).
Proof. split; [exists 481|exists 1497]; split; try reflexivity; discriminate. Qed.
Print Assumptions c18_never_advertises_more_refuted.
Theorem c18_never_more_iff_standard_partial : forall segs a,
  decodeMaxApdu (encodeMaxSegsMaxApdu segs a) <= a <-> In a apdu_sizes \/ 1476 < a.
Proof. exact size_up_le_iff. Qed.
Print Assumptions c18_never_more_iff_standard_partial.

(** * C19 *)
Theorem c19_iam_round_trip : forall i, iam_ok i -> exists w r d d',
  enc_IAm i newEncoder = ROk (mkEnc (spec_iam i) None, None)
  /\ dec_APDU (newDecoder (spec_iam i)) = ((r, None), d)
  /\ p_type r = pduUnconfirmed /\ p_uservice r = 0 /\ p_raw r = w
  /\ dec_IAm (newDecoder w) = Val (mkIam (i_id i) (i_maxapdu i) (i_seg i) (i_vendor i) addr0, None) d'
  /\ dbuf d' = [].
Proof. exact iam_round. Qed.
Print Assumptions c19_iam_round_trip.
Example c19_ex : iam_ok (mkIam (mkOid 8 202) 1476 3 514 addr0)
  /\ spec_iam (mkIam (mkOid 8 202) 1476 3 514 addr0) = [16; 0; 196; 2; 0; 0; 202; 34; 5; 196; 145; 3; 34; 2; 2].
Proof. split; [unfold iam_ok, valid_oid, in_u32; cbn; repeat split; try discriminate; auto|reflexivity]. Qed.

(** * C20 *)
Theorem c20_whois_round_trip : forall low high, exists w r d d',
  enc_WhoIs low high newEncoder = mkEnc (spec_whois (whois_limits low high)) None
  /\ dec_APDU (newDecoder (spec_whois (whois_limits low high))) = ((r, None), d)
  /\ p_type r = pduUnconfirmed /\ p_uservice r = 8 /\ p_raw r = w
  /\ dec_WhoIs (newDecoder w) =
     ((if (0 <=? low) && (low <? 4194303) && (0 <=? high) && (high <? 4194303) then (low, high, None) else (-1, -1, None)), d').
Proof. exact whois_round. Qed.
Print Assumptions c20_whois_round_trip.
Example c20_ex : spec_whois (whois_limits 300 70000) = [16; 8; 10; 1; 44; 27; 1; 17; 112].
Proof. reflexivity. Qed.

(** * C21: false.  A list of one network is an error, the third and later
    networks are dropped. *)
Theorem c21_router_networks_refuted :
  (exists net n l e d, dec_NPDU (newDecoder (spec_iam_router [net])) = ((n, l, Some e), d))
  /\ (exists nets n l d, dec_NPDU (newDecoder (spec_iam_router nets)) = ((n, l, None), d)
      /\ exists x, In x nets /\ ~ In x (nets_of l)).
Proof.
  split.
  - exists 2001. do 4 eexists. reflexivity.
  - exists [1; 2; 3]. do 3 eexists. split; [reflexivity|]. exists 3. cbn. intuition discriminate.
Qed.
Print Assumptions c21_router_networks_refuted.
Theorem c21_router_networks_exact_partial : forall nets, Forall (fun n => 0 <= n < 65536) nets ->
  match nets with
  | a :: b :: _ => exists n l d, dec_NPDU (newDecoder (spec_iam_router nets)) = ((n, l, None), d)
                   /\ nets_of l = (if a =? b then [a] else [a; b])
  | _ => exists n l e d, dec_NPDU (newDecoder (spec_iam_router nets)) = ((n, l, Some e), d)
  end.
Proof. exact router_exact. Qed.
Print Assumptions c21_router_networks_exact_partial.
Example c21_ex : spec_iam_router [2001; 5] = [1; 128; 1; 7; 209; 0; 5].
Proof. reflexivity. Qed.

(** * C22: false.  Of the standard Error-PDU the code is read from the wrong octet. *)
Theorem c22_error_class_and_code_refuted : exists inv svc class code r d,
  dec_APDU (newDecoder (spec_error inv svc class code)) = ((r, None), d)
  /\ p_type r = pduError /\ p_invoke r = inv /\ p_ecode r <> code.
Proof.
  exists 7, 12, 2, 32. do 2 eexists. split; [reflexivity|]. repeat split. discriminate.
Qed.
Print Assumptions c22_error_class_and_code_refuted.
Theorem c22_standard_error_exact_partial : forall inv svc c k, 0 <= c < 240 -> 0 <= k < 256 -> exists r d,
  dec_APDU (newDecoder (spec_error inv svc c k)) = ((r, None), d)
  /\ p_type r = pduError /\ p_invoke r = inv
  /\ p_eclass r = c /\ p_ecode r = (if c mod 8 =? 5 then k else 145).
Proof. exact error_standard. Qed.
Print Assumptions c22_standard_error_exact_partial.
Theorem c22_bracketed_error_partial : forall t inv svc c k rest, 0 <= t < 256 -> 0 <= c < 65536 -> 0 <= k < 4294967296 -> exists r d,
  dec_APDU (newDecoder (spec_error_bracketed t inv svc c k ++ rest)) = ((r, None), d)
  /\ p_type r = pduError /\ p_invoke r = inv /\ p_eclass r = c /\ p_ecode r = k.
Proof. exact error_bracketed. Qed.
Print Assumptions c22_bracketed_error_partial.
Example c22_ex : spec_error 7 12 2 32 = [80; 7; 12; 145; 2; 145; 32]
  /\ spec_error_bracketed 0 7 16 2 300 = [80; 7; 16; 14; 145; 2; 146; 1; 44; 15].
Proof. split; reflexivity. Qed.
