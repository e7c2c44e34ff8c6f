(** The client: receiving, single requests, discovery, object lists (C35-C49, C70).
    [handleMsg known src b] gives what the receive path does with datagram [b]:
    deliveries to transactions, publications, and whether it panics. *)
From Coq Require Import Permutation.
From Verif Require Import ModelClient SpecWire SpecCodec SpecLayers SpecServices SpecObs SpecClient
  ProofsServiceProps ProofsRecv ProofsCall ProofsRoute ProofsObjects ProofsCrash.

Definition ex_dev : device := mkDev (mkOid 8 1) 1476 (mkAddr 0 0 6 [10; 0; 0; 1; 186; 192] []).
Definition ex_src : address := mkAddr 0 0 6 [10; 0; 0; 9; 186; 192] [].
Definition ex_npdu : npdu := mkNpdu 1 None None 0 false 0 false 0 0.
Lemma ex_npdu_ok : npdu_ok ex_npdu /\ n_netmsg ex_npdu = false.
Proof. split; [|reflexivity]. unfold npdu_ok, is_byte. cbn. repeat split; try discriminate; auto. Qed.

(** * C35: false.  An 8-octet Forwarded-NPDU frame and an I-Am whose value is a
    character string of length 0 crash the receiver; nothing else does. *)
Theorem c35_no_crash_refuted : exists b1 b2, forall known src,
  is_bytes b1 /\ is_bytes b2 /\ snd (handleMsg known src b1) = true /\ snd (handleMsg known src b2) = true /\ nth 1 b2 0 = 11.
Proof.
  exists [129; 4; 0; 8; 1; 0; 16; 8], [129; 11; 0; 9; 1; 0; 16; 0; 112].
  intros known src. repeat split; try (repeat constructor; discriminate).
Qed.
Print Assumptions c35_no_crash_refuted.
Example c35_ex : snd (handleMsg (fun _ => true) ex_src [129; 4; 0; 8; 1; 0; 16; 8]) = true /\ zlen [129; 4; 0; 8; 1; 0; 16; 8] = 8.
Proof. split; reflexivity. Qed.

(** * C36: false: a confirmed request is delivered to the transaction that has its
    invoke id.  Otherwise nothing is delivered or published that the frame does not
    call for, and every ack, error and I-Am is. *)
Theorem c36_dispatch_refuted : exists b, is_bytes b /\ forall known src, exists apdu, pdu_type apdu = 0
  /\ b = spec_bvlc 10 (spec_npdu ex_npdu ++ apdu) /\ handleMsg known src b = ([EDeliver 7 (PBytes apdu)], false).
Proof.
  exists [129; 10; 0; 17; 1; 0; 0; 5; 7; 12; 12; 2; 0; 0; 1; 25; 77]. split; [repeat constructor; discriminate|].
  intros. exists [0; 5; 7; 12; 12; 2; 0; 0; 1; 25; 77]. split; [reflexivity|]. split; [reflexivity|]. cbn. destruct (known 7); reflexivity.
Qed.
Print Assumptions c36_dispatch_refuted.
Theorem c36_only_what_the_frame_says_partial : forall known src b e, is_bytes b -> In e (fst (handleMsg known src b)) -> justified b e.
Proof. exact recv_justified. Qed.
Print Assumptions c36_only_what_the_frame_says_partial.
Theorem c36_acks_partial : forall known src f n t inv svc w, frame_func f -> npdu_ok n -> n_netmsg n = false ->
  is_byte t -> t / 16 = 2 \/ t / 16 = 3 ->
  handleMsg known src (spec_bvlc f (spec_npdu n ++ t :: inv :: svc :: w)) = ([EDeliver inv (PBytes (t :: inv :: svc :: w))], false).
Proof. exact recv_ack. Qed.
Print Assumptions c36_acks_partial.
Theorem c36_errors_partial : forall known src f n inv svc c k, frame_func f -> npdu_ok n -> n_netmsg n = false ->
  0 <= c < 240 -> 0 <= k < 256 ->
  handleMsg known src (spec_bvlc f (spec_npdu n ++ spec_error inv svc c k))
  = ([EDeliver inv (PErr c (if c mod 8 =? 5 then k else 145))], false).
Proof. exact recv_error. Qed.
Print Assumptions c36_errors_partial.
Theorem c36_iam_partial : forall known src f n i, frame_func f -> npdu_ok n -> n_netmsg n = false -> iam_ok i ->
  handleMsg known src (spec_bvlc f (spec_npdu n ++ spec_iam i))
  = ([EPubIAm (oid_inst (i_id i)) (mkIam (i_id i) (i_maxapdu i) (i_seg i) (i_vendor i) (iam_addr src (seen_addr (n_src n))))], false).
Proof. exact recv_iam. Qed.
Print Assumptions c36_iam_partial.
Theorem c36_requests_delivered_partial : forall known src f n seg more sa sizes inv seq win svc w, frame_func f -> npdu_ok n -> n_netmsg n = false ->
  let apdu := spec_confirmed seg more sa sizes inv seq win svc ++ w in
  handleMsg known src (spec_bvlc f (spec_npdu n ++ apdu)) = ([EDeliver inv (PBytes apdu)], false).
Proof. exact recv_confirmed. Qed.
Print Assumptions c36_requests_delivered_partial.
Theorem c36_other_services_ignored_partial : forall known src f n svc w, frame_func f -> npdu_ok n -> n_netmsg n = false -> svc <> 0 ->
  handleMsg known src (spec_bvlc f (spec_npdu n ++ spec_unconfirmed svc ++ w)) = ([], false).
Proof. exact recv_other_unconfirmed. Qed.
Print Assumptions c36_other_services_ignored_partial.
Example c36_ex : frame_func 10 /\ npdu_ok ex_npdu /\ n_netmsg ex_npdu = false
  /\ handleMsg (fun _ => true) ex_src [129; 10; 0; 9; 1; 0; 32; 5; 15] = ([EDeliver 5 (PBytes [32; 5; 15])], false)
  /\ handleMsg (fun _ => true) ex_src [129; 11; 0; 20; 1; 0; 16; 0; 196; 2; 0; 0; 7; 34; 5; 196; 145; 3; 33; 10]
     = ([EPubIAm 7 (mkIam (mkOid 8 7) 1476 3 10 ex_src)], false).
Proof. split; [left; reflexivity|]. split; [apply ex_npdu_ok|]. repeat split. Qed.

(** * C37: false: a Reject (6) or Abort (7) is dropped, always. *)
Theorem c37_final_answers_refuted : exists reject abort, pdu_type reject = 6 /\ pdu_type abort = 7
  /\ invoke_of reject = 5 /\ invoke_of abort = 5
  /\ forall known src, handleMsg known src (spec_bvlc 10 (spec_npdu ex_npdu ++ reject)) = ([], false)
                    /\ handleMsg known src (spec_bvlc 10 (spec_npdu ex_npdu ++ abort)) = ([], false).
Proof. exists [96; 5; 9], [113; 5; 4]. repeat split. Qed.
Print Assumptions c37_final_answers_refuted.
Theorem c37_dropped_exact_partial : forall known src f n t w, frame_func f -> npdu_ok n -> n_netmsg n = false -> is_byte t ->
  t / 16 = 4 \/ 6 <= t / 16 ->
  handleMsg known src (spec_bvlc f (spec_npdu n ++ t :: w)) = ([], false).
Proof. exact recv_ignored. Qed.
Print Assumptions c37_dropped_exact_partial.
Example c37_ex : frame_func 10 /\ npdu_ok ex_npdu /\ n_netmsg ex_npdu = false /\ is_byte 96 /\ 6 <= 96 / 16.
Proof. split; [left; reflexivity|]. split; [apply ex_npdu_ok|]. split; [reflexivity|]. split; [split; [discriminate|reflexivity]|discriminate]. Qed.

(** * C38: false: the originating address is read as the network header.  In a
    network 10.0.0.0/24 every forwarded broadcast ends up in transaction 186. *)
Theorem c38_forwarded_refuted : exists origin body, length origin = 6%nat /\ forall known src,
  fst (handleMsg known src (spec_bvlc 4 (origin ++ body))) <> fst (handleMsg known src (spec_bvlc 11 body))
  /\ exists k i, In (EPubIAm k i) (fst (handleMsg known src (spec_bvlc 11 body))).
Proof.
  exists [10; 0; 0; 9; 186; 192], [1; 0; 16; 0; 196; 2; 0; 0; 7; 34; 5; 196; 145; 3; 33; 10].
  split; [reflexivity|]. intros known src. rewrite forwarded_net10.
  change [1; 0; 16; 0; 196; 2; 0; 0; 7; 34; 5; 196; 145; 3; 33; 10] with (spec_npdu ex_npdu ++ spec_iam (mkIam (mkOid 8 7) 1476 3 10 addr0)).
  rewrite recv_iam; [|right; reflexivity|apply ex_npdu_ok|reflexivity|unfold iam_ok, valid_oid, in_u32; cbn; repeat split; discriminate].
  cbn [fst]. split; [discriminate|]. do 2 eexists. left. reflexivity.
Qed.
Print Assumptions c38_forwarded_refuted.
Theorem c38_origin_not_skipped_exact_partial : forall known src body,
  fst (handleMsg known src (spec_bvlc 4 body)) = fst (handleMsg known src (spec_bvlc 11 body)).
Proof. exact recv_forwarded. Qed.
Print Assumptions c38_origin_not_skipped_exact_partial.
Theorem c38_net10_misdelivered_partial : forall known src d p,
  fst (handleMsg known src (spec_bvlc 4 ([10; 0; 0; d; 186; 192] ++ p))) = [EDeliver 186 (PBytes ([0; d; 186; 192] ++ p))].
Proof. exact forwarded_net10. Qed.
Print Assumptions c38_net10_misdelivered_partial.
Example c38_ex : fst (handleMsg (fun _ => true) ex_src (spec_bvlc 4 ([10; 0; 0; 9; 186; 192] ++ [1; 0; 32; 5; 15])))
  = [EDeliver 186 (PBytes [0; 9; 186; 192; 1; 0; 32; 5; 15])].
Proof. reflexivity. Qed.

(** * C39 *)
Theorem c39_read_end_to_end : forall e me dev known src f n ip port o p idx vs id,
  ev_id e = Some id -> is_byte id -> routable dev ip port -> addr_ok (addr_SetLength (dv_addr dev)) -> opt_addr_ok me ->
  valid_oid o -> valid_property p -> in_u32 idx -> Forall supported vs ->
  frame_func f -> npdu_ok n -> n_netmsg n = false ->
  let dest := addr_SetLength (dv_addr dev) in
  let g := mkDgram ip port (spec_bvlc (send_func dest None) (spec_npdu (request_npdu dest me) ++ spec_read_request id o p idx)) in
  at_sent (ev_att e 0 g) = true ->
  (exists reply, at_reply (ev_att e 0 g) = Some reply
     /\ In (EDeliver id reply) (fst (handleMsg known src (spec_bvlc f (spec_npdu n ++ spec_read_ack id o p idx vs))))) ->
  ReadProperty e me dev (request o p idx) = ([g], COk (answer o p idx (one_or_list (map shown vs)))).
Proof. exact read_end_to_end. Qed.
Print Assumptions c39_read_end_to_end.
(** the present value of analog input 3 is 75.5 *)
Example c39_ex : let ack := spec_read_ack 7 (mkOid 0 3) 85 whole [SVal (VReal 1117192192)] in
  let e := mkEnv (Some 7) (fun _ _ => mkAtt true (Some (PBytes ack))) in
  routable ex_dev [10; 0; 0; 1] 47808 /\ addr_ok (addr_SetLength (dv_addr ex_dev)) /\ opt_addr_ok None
  /\ Forall supported [SVal (VReal 1117192192)]
  /\ In (EDeliver 7 (PBytes ack)) (fst (handleMsg (fun _ => true) ex_src (spec_bvlc 10 (spec_npdu ex_npdu ++ ack))))
  /\ ReadProperty e None ex_dev (request (mkOid 0 3) 85 whole)
     = ([mkDgram [10; 0; 0; 1] 47808 [129; 10; 0; 17; 1; 4; 0; 5; 7; 12; 12; 0; 0; 0; 3; 25; 85]],
        COk (answer (mkOid 0 3) 85 whole (VReal 1117192192))).
Proof.
  cbv zeta. split; [reflexivity|]. split; [unfold addr_ok; cbn; repeat split; try discriminate; constructor|]. split; [exact I|].
  split; [repeat constructor; discriminate|]. split; [left; reflexivity|reflexivity].
Qed.

(** * C40.  [reports]: the call returned an error, or crashed before transmitting
    (C34). *)
Theorem c40_read_tries : forall e me dev rp,
  (length (fst (ReadProperty e me dev rp)) <= 1)%nat /\ (unanswered e -> reports (ReadProperty e me dev rp)).
Proof. exact retries_read. Qed.
Print Assumptions c40_read_tries.
Theorem c40_write_tries : forall e me dev wp,
  (length (fst (WriteProperty e me dev wp)) <= 2)%nat /\ (unanswered e -> reports (WriteProperty e me dev wp)).
Proof. exact retries_write. Qed.
Print Assumptions c40_write_tries.
Theorem c40_readmulti_tries : forall fuel e me dev rp,
  (length (fst (ReadMultiProperty fuel e me dev rp)) <= 2)%nat /\ (unanswered e -> reports (ReadMultiProperty fuel e me dev rp)).
Proof. exact retries_readmulti. Qed.
Print Assumptions c40_readmulti_tries.
Theorem c40_writemulti_tries : forall e me dev wp,
  (length (fst (WriteMultiProperty e me dev wp)) <= 2)%nat /\ (unanswered e -> reports (WriteMultiProperty e me dev wp)).
Proof. exact retries_writemulti. Qed.
Print Assumptions c40_writemulti_tries.
Example c40_ex : let e := mkEnv (Some 1) (fun _ _ => mkAtt true None) in
  unanswered e
  /\ length (fst (ReadProperty e None ex_dev (request (mkOid 0 1) 85 whole))) = 1%nat
  /\ length (fst (WriteProperty e None ex_dev (write_of (mkOid 1 1) 85 whole (VReal 0) 8))) = 2%nat
  /\ length (fst (ReadMultiProperty 9 e None ex_dev (mkMPD [read_object (mkOid 0 1, [(85, whole)])]))) = 2%nat
  /\ length (fst (WriteMultiProperty e None ex_dev (mkMPD [write_object (mkOid 1 1, [mkWriting 85 whole (VReal 0) 0])]))) = 2%nat.
Proof. cbv zeta. split; [intros k g; right; reflexivity|]. repeat split. Qed.

(** * C41: false: a confirmed request of the device that happens to use the same
    invoke id counts as an acknowledgement.  Only such a request or an ack does. *)
Theorem c41_write_acknowledged_refuted : exists e dev wp tr, ev_id e = Some 7 /\ replies_from_network e 7
  /\ (forall k g p, at_reply (ev_att e k g) = Some p -> exists x, p = PBytes x /\ pdu_type x = 0)
  /\ WriteProperty e None dev wp = (tr, COk tt).
Proof.
  set (apdu := spec_confirmed false false false 5 7 0 0 12 ++ [12; 2; 0; 0; 1; 25; 77]).
  exists (mkEnv (Some 7) (fun _ _ => mkAtt true (Some (PBytes apdu)))), ex_dev, (write_of (mkOid 1 1) 85 whole (VReal 0) 8). eexists.
  split; [reflexivity|]. split; [|split].
  - intros k g p H. injection H as <-. exists (fun _ => true), ex_src, (spec_bvlc 10 (spec_npdu ex_npdu ++ apdu)).
    split; [repeat constructor; discriminate|]. left. reflexivity.
  - intros k g p H. injection H as <-. exists apdu. split; reflexivity.
  - reflexivity.
Qed.
Print Assumptions c41_write_acknowledged_refuted.
Theorem c41_write_success_partial : forall e me dev wp tr id, ev_id e = Some id -> replies_from_network e id ->
  WriteProperty e me dev wp = (tr, COk tt) ->
  exists b pre x, is_bytes b /\ b = pre ++ x /\ invoke_of x = id
  /\ (pdu_type x = 0 \/ pdu_type x = 2 \/ pdu_type x = 3)
  /\ exists k g, In g tr /\ at_reply (ev_att e k g) = Some (PBytes x).
Proof. exact write_success. Qed.
Print Assumptions c41_write_success_partial.
(** Whatever is written to whatever device: nothing is transmitted and the call does
    not succeed, or the outcome depends only on the fate of two transmissions: it
    succeeds exactly if something was delivered for the first, or for the second
    after silence.  Writing several properties also goes on after an Error PDU. *)
Theorem c41_write_exact_partial : forall e me dev id wp, ev_id e = Some id -> replies_from_network e id ->
  let r := WriteProperty e me dev wp in
  (fst r = [] /\ snd r <> COk tt) \/ exists g, r = write_outcome g (ev_att e 0 g) (ev_att e 1 g).
Proof. exact write_exact. Qed.
Print Assumptions c41_write_exact_partial.
Theorem c41_writemulti_exact_partial : forall e me dev id wp, ev_id e = Some id -> replies_from_network e id ->
  let r := WriteMultiProperty e me dev wp in
  (fst r = [] /\ snd r <> COk tt) \/ exists g, r = multi_outcome g (ev_att e 0 g) (ev_att e 1 g).
Proof. exact writemulti_exact. Qed.
Print Assumptions c41_writemulti_exact_partial.
Example c41_ex : let e := mkEnv (Some 5) (fun _ _ => mkAtt true (Some (PBytes [32; 5; 15]))) in
  let err := mkEnv (Some 5) (fun k _ => match k with O => mkAtt true (Some (PErr 2 40)) | _ => mkAtt true (Some (PBytes [32; 5; 16])) end) in
  let lost := mkEnv (Some 5) (fun k _ => match k with O => mkAtt true None | _ => mkAtt false None end) in
  replies_from_network e 5 /\ replies_from_network lost 5
  /\ snd (WriteProperty e None ex_dev (write_of (mkOid 1 1) 85 whole (VReal 0) 8)) = COk tt
  /\ snd (WriteProperty lost None ex_dev (write_of (mkOid 1 1) 85 whole (VReal 0) 8)) = CErr CSend
  /\ length (fst (WriteProperty lost None ex_dev (write_of (mkOid 1 1) 85 whole (VReal 0) 8))) = 2%nat
  /\ snd (WriteProperty err None ex_dev (write_of (mkOid 1 1) 85 whole (VReal 0) 8)) = CErr (CPdu 2 40)
  /\ snd (WriteMultiProperty err None ex_dev (mkMPD [write_object (mkOid 1 1, [mkWriting 85 whole (VReal 0) 8])])) = COk tt.
Proof.
  cbv zeta. split; [|split; [|repeat split]].
  - intros k g p H. injection H as <-. exists (fun _ => true), ex_src, [129; 10; 0; 9; 1; 0; 32; 5; 15].
    split; [repeat constructor; discriminate|]. left. reflexivity.
  - intros [|k] g p H; discriminate H.
Qed.

(** * C42.  The packet is the frame without its 4-octet BVLC header. *)
Theorem c42_readmulti_limit : forall fuel e me dev rp g, In g (fst (ReadMultiProperty fuel e me dev rp)) -> zlen (g_bytes g) < 4294967296 ->
  zlen (g_bytes g) - 4 <= dv_maxapdu dev /\ dv_maxapdu dev <> 0.
Proof. exact limit_readmulti. Qed.
Print Assumptions c42_readmulti_limit.
Theorem c42_writemulti_limit : forall e me dev wp g, In g (fst (WriteMultiProperty e me dev wp)) -> zlen (g_bytes g) < 4294967296 ->
  zlen (g_bytes g) - 4 <= dv_maxapdu dev.
Proof. exact limit_writemulti. Qed.
Print Assumptions c42_writemulti_limit.
Theorem c42_zero_refused : forall fuel e me dev, dv_maxapdu dev = 0 ->
  (forall rp, exists x, ReadMultiProperty fuel e me dev rp = ([], CErr x))
  /\ ((forall id, ev_id e = Some id -> is_byte id) -> forall xs g, Forall (fun x => valid_oid (fst x) /\ Forall writing_ok (snd x)) xs ->
      In g (fst (WriteMultiProperty e me dev (mkMPD (map write_object xs)))) -> 4294967296 <= zlen (g_bytes g)).
Proof. exact zero_refused. Qed.
Print Assumptions c42_zero_refused.
(** the packet has 15 octets: a device with that maximum is asked, one with 14 not *)
Example c42_ex : let e := mkEnv (Some 1) (fun _ _ => mkAtt true None) in
  let dev m := mkDev (mkOid 8 1) m (dv_addr ex_dev) in
  let rp := mkMPD [read_object (mkOid 0 1, [(85, whole)])] in
  map (fun g => zlen (g_bytes g) - 4) (fst (ReadMultiProperty 9 e None (dev 15) rp)) = [15; 15]
  /\ ReadMultiProperty 9 e None (dev 14) rp = ([], CErr CTooLarge).
Proof. split; reflexivity. Qed.

(** * C43: false for station addresses of two octets or more, and for every
    discovered device with WriteMultiProperty, which then goes to all stations of the
    network. *)
Theorem c43_routed_frames_refuted : exists e dev net adr g, station dev net adr
  /\ fst (ReadProperty e None dev (request (mkOid 0 1) 85 whole)) = [g]
  /\ g_bytes g = station_frame net [1] 2 (255 :: spec_read_request 7 (mkOid 0 1) 85 whole)
  /\ g_bytes g <> station_frame net adr 255 (spec_read_request 7 (mkOid 0 1) 85 whole).
Proof.
  exists (mkEnv (Some 7) (fun _ _ => mkAtt true None)), (mkDev (mkOid 8 1) 1476 (mkAddr 2001 0 6 [10; 0; 0; 1; 186; 192] [1; 2])), 2001, [1; 2].
  eexists. split; [unfold station, is_bytes, is_byte; cbn; repeat split; try discriminate; repeat constructor; discriminate|].
  split; [reflexivity|]. split; [reflexivity|discriminate].
Qed.
Print Assumptions c43_routed_frames_refuted.
Theorem c43_read_exact_partial : forall e me dev ip port id o p idx net adr g, ev_id e = Some id -> is_byte id -> routable dev ip port -> station dev net adr ->
  present me = false -> valid_oid o -> valid_property p -> in_u32 idx ->
  In g (fst (ReadProperty e me dev (request o p idx))) -> zlen (g_bytes g) <= 65535 ->
  let apdu := spec_read_request id o p idx in
  g_ip g = ip /\ g_port g = port
  /\ (g_bytes g = station_frame net adr 255 apdu <-> zlen adr = 1)
  /\ (forall a h r, adr = a :: h :: r -> g_bytes g = station_frame net [a] h (r ++ 255 :: apdu)).
Proof. exact routed_read. Qed.
Print Assumptions c43_read_exact_partial.
Theorem c43_write_exact_partial : forall e me dev ip port id o p idx v prio net adr g, ev_id e = Some id -> is_byte id -> routable dev ip port -> station dev net adr ->
  present me = false -> valid_oid o -> valid_property p -> in_u32 idx -> is_byte prio -> writable v ->
  (binary_pv o p = true -> v = VNull \/ exists n, v = VUint n) ->
  In g (fst (WriteProperty e me dev (write_of o p idx v prio))) -> zlen (g_bytes g) <= 65535 ->
  let apdu := lib_write id o p idx v prio in
  g_ip g = ip /\ g_port g = port
  /\ (g_bytes g = station_frame net adr 255 apdu <-> zlen adr = 1)
  /\ (forall a h r, adr = a :: h :: r -> g_bytes g = station_frame net [a] h (r ++ 255 :: apdu)).
Proof. exact routed_write. Qed.
Print Assumptions c43_write_exact_partial.
Theorem c43_readmulti_exact_partial : forall fuel e me dev ip port id xs net adr g, ev_id e = Some id -> is_byte id -> routable dev ip port -> station dev net adr ->
  present me = false ->
  Forall (fun x => valid_oid (fst x) /\ Forall (fun p => in_u32 (fst p) /\ in_u32 (snd p)) (snd x)) xs ->
  In g (fst (ReadMultiProperty fuel e me dev (mkMPD (map read_object xs)))) -> zlen (g_bytes g) <= 65535 ->
  let apdu := spec_readmulti_request id xs in
  g_ip g = ip /\ g_port g = port
  /\ (g_bytes g = station_frame net adr 255 apdu <-> zlen adr = 1)
  /\ (forall a h r, adr = a :: h :: r -> g_bytes g = station_frame net [a] h (r ++ 255 :: apdu)).
Proof. exact routed_readmulti. Qed.
Print Assumptions c43_readmulti_exact_partial.
Theorem c43_writemulti_exact_partial : forall e me dev ip port id xs net adr g, ev_id e = Some id -> is_byte id -> routable dev ip port -> station dev net adr ->
  is_byte (a_len (dv_addr dev)) -> present me = false ->
  Forall (fun x => valid_oid (fst x) /\ Forall writing_ok (snd x)) xs ->
  In g (fst (WriteMultiProperty e me dev (mkMPD (map write_object xs)))) -> zlen (g_bytes g) <= 65535 ->
  let apdu := spec_request id 16 ++ flat_map lib_write_spec xs in
  g_ip g = ip /\ g_port g = port
  /\ (g_bytes g = station_frame net adr 255 apdu <-> a_len (dv_addr dev) = zlen adr)
  /\ (forall a r, a_len (dv_addr dev) = 0 -> adr = a :: r -> g_bytes g = station_frame net [] a (r ++ 255 :: apdu)).
Proof. exact routed_writemulti. Qed.
Print Assumptions c43_writemulti_exact_partial.
Theorem c43_discovered_length_partial : forall ip port nsrc, a_len (iam_addr (UDPToAddress ip port) nsrc) = 0.
Proof. exact discovered_len. Qed.
Print Assumptions c43_discovered_length_partial.
Definition ex_station : device := mkDev (mkOid 8 1) 1476 (mkAddr 2001 0 6 [10; 0; 0; 1; 186; 192] [5]).
Example c43_ex : let e := mkEnv (Some 7) (fun _ _ => mkAtt true None) in
  station ex_station 2001 [5] /\ routable ex_station [10; 0; 0; 1] 47808
  /\ map g_bytes (fst (ReadProperty e None ex_station (request (mkOid 0 1) 85 whole)))
     = [[129; 10; 0; 22; 1; 36; 7; 209; 1; 5; 255; 0; 5; 7; 12; 12; 0; 0; 0; 1; 25; 85]].
Proof. split; [unfold station, is_bytes, is_byte; cbn; repeat split; try discriminate; repeat constructor; discriminate|]. split; reflexivity. Qed.

(** * C44: false: a Who-Is for the local network goes to the broadcast IP address
    with the unicast function. *)
Theorem c44_broadcast_function_refuted : exists bip bport wh g, whois_frame (UDPToAddress bip bport) None wh = ROk (Some g)
  /\ g_ip g = bip /\ bip = [10; 0; 0; 255] /\ nth 1 (g_bytes g) 0 = 10.
Proof. exists [10; 0; 0; 255], 47808, (mkWho 0 0 false 0). eexists. repeat split. Qed.
Print Assumptions c44_broadcast_function_refuted.
Theorem c44_whois_function_exact_partial : forall bip bport wh me g, 0 <= wh_net wh -> length bip = 4%nat ->
  whois_frame (UDPToAddress bip bport) me wh = ROk (Some g) ->
  g_ip g = bip /\ nth 1 (g_bytes g) 0 = (if wh_global wh || (0 <? wh_net wh) then 11 else 10).
Proof. exact whois_func. Qed.
Print Assumptions c44_whois_function_exact_partial.
Theorem c44_send_function_exact_partial : forall dest, 0 <= a_net dest ->
  (send_func dest None = 11 <-> a_adr dest = [] /\ (a_net dest = 65535 \/ a_maclen dest = 0 \/ (0 < a_net dest /\ a_len dest = 0)))
  /\ (send_func dest None <> 11 -> send_func dest None = 10).
Proof. exact send_func_table. Qed.
Print Assumptions c44_send_function_exact_partial.
Example c44_ex : send_func (mkAddr 65535 0 6 [10; 0; 0; 255; 186; 192] []) None = 11 /\ send_func (dv_addr ex_station) None = 10
  /\ exists g, whois_frame (UDPToAddress [10; 0; 0; 255] 47808) None (mkWho 0 0 true 0) = ROk (Some g).
Proof. split; [reflexivity|]. split; [reflexivity|]. eexists. reflexivity. Qed.

(** * C45 *)
Theorem c45_whois_result : forall wh published, Forall keyed published ->
  let r := whois_returns wh published in
  NoDup (map f_deviceid r)
  /\ (forall x, In x r <-> exists pre i post, published = pre ++ (oid_inst (i_id i), PubIAm i) :: post
        /\ requested_low wh <= oid_inst (i_id i) <= requested_high wh /\ x = found_of i
        /\ forall k j, In (k, PubIAm j) pre -> oid_inst (i_id j) <> oid_inst (i_id i)).
Proof. exact whois_spec. Qed.
Print Assumptions c45_whois_result.
Theorem c45_whois_order : forall wh a b, exists rest, whois_returns wh (a ++ b) = whois_returns wh a ++ rest.
Proof. exact whois_order. Qed.
Print Assumptions c45_whois_order.
Definition ex_iam (inst vendor : Z) : Z * pub := (inst, PubIAm (mkIam (mkOid 8 inst) 480 3 vendor ex_src)).
Example c45_ex : let pubs := [ex_iam 20 1; ex_iam 5 2; ex_iam 20 3; ex_iam 99 4; ex_iam 7 5] in
  Forall keyed pubs /\ map f_deviceid (whois_returns (mkWho 6 50 false 0) pubs) = [20; 7]
  /\ map f_vendor (whois_returns (mkWho 6 50 false 0) pubs) = [1; 5].
Proof. split; [repeat constructor|split; reflexivity]. Qed.

(** * C46: false when a bound exceeds 32 bits: the bounds on the wire are truncated. *)
Theorem c46_whois_covers_refuted : exists wh g, requested_low wh <= 100 <= requested_high wh
  /\ whois_frame (UDPToAddress [10; 0; 0; 255] 47808) None wh = ROk (Some g)
  /\ g_bytes g = spec_bvlc 10 ([1; 0] ++ spec_whois (Some (0, 5))).
Proof. exists (mkWho 0 4294967301 false 0). eexists. split; [split; discriminate|]. split; reflexivity. Qed.
Print Assumptions c46_whois_covers_refuted.
Theorem c46_whois_covers_partial : forall bcast me wh ip port, addr_UDPAddr bcast = Some (ip, port) -> addr_ok (whois_dest bcast wh) -> opt_addr_ok me ->
  wh_low wh < 2147483648 -> wh_high wh < 2147483648 ->
  let dest := whois_dest bcast wh in
  let n := mkNpdu 1 (Some dest) me 0 false 0 false 0 255 in
  exists apdu, whois_frame bcast me wh = ROk (Some (mkDgram ip port (spec_bvlc (send_func dest None) (spec_npdu n ++ apdu))))
  /\ forall i, requested_low wh <= i <= requested_high wh -> asks apdu i.
Proof. exact whois_asks. Qed.
Print Assumptions c46_whois_covers_partial.
Example c46_ex : addr_ok (whois_dest (UDPToAddress [10; 0; 0; 255] 47808) (mkWho 6 50 true 0))
  /\ (exists ip port, addr_UDPAddr (UDPToAddress [10; 0; 0; 255] 47808) = Some (ip, port)).
Proof. split; [unfold addr_ok; cbn; repeat split; try discriminate; constructor|]. do 2 eexists. reflexivity. Qed.

(** * C47.  Packets to local devices have 2 octets before the APDU; to routed ones 8. *)
Theorem c47_chunks : forall maxapdu l, 20 <= maxapdu -> 0 <= l < 4294967296 -> exists cs,
  chunks (maxapdu / readPropRequestSize) l = ROk cs /\ partition (maxapdu / 20) l cs
  /\ forall c inv dev, In c cs ->
     2 + zlen (spec_readmulti_request inv (list_request dev c)) <= maxapdu
     /\ (40 <= maxapdu -> 8 + zlen (spec_readmulti_request inv (list_request dev c)) <= maxapdu).
Proof. exact chunks_fit. Qed.
Print Assumptions c47_chunks.
Example c47_ex : chunks (50 / readPropRequestSize) 5 = ROk [(1, 2); (3, 4); (5, 5)] /\ partition 2 5 [(1, 2); (3, 4); (5, 5)].
Proof. split; [reflexivity|]. split; [reflexivity|]. repeat constructor; discriminate. Qed.

(** * C48: false: a device that announces less than 20 octets crashes the caller, and
    so does an answer with one property instead of name and description. *)
Theorem c48_never_crashes_refuted : exists envs dev, 0 < dv_maxapdu dev /\ ev_id (envs 0%nat) = Some 7 /\ answers_read [1; 4] 7 (envs 0%nat)
  /\ forall fuel order, snd (Objects fuel order envs None dev) = CPanic.
Proof.
  exists (fun _ => mkEnv (Some 7) (fun _ g => mkAtt true (Some (PBytes (spec_complex_ack 7 12 ++ skipn 10 (g_bytes g) ++ spec_open 3 ++ spec_app (VUint 0) ++ spec_close 3))))),
    (mkDev (mkOid 8 1) 16 (dv_addr ex_dev)).
  split; [reflexivity|]. split; [reflexivity|]. split; [|intros; reflexivity].
  intros k g o p idx Hg. cbn [at_reply ev_att]. rewrite Hg. exists [SVal (VUint 0)]. split; [|repeat constructor; discriminate].
  unfold spec_read_ack. cbn [flat_map]. rewrite app_nil_r. unfold frame_with, spec_bvlc, spec_read_request. reflexivity.
Qed.
Print Assumptions c48_never_crashes_refuted.
Theorem c48_small_apdu_crash_exact_partial : forall fuel order envs me dev tr n, 0 <= dv_maxapdu dev < 20 ->
  objectListLen (envs 0%nat) me dev = (tr, COk n) -> Objects fuel order envs me dev = (tr ++ [], CPanic).
Proof. exact small_apdu_crash. Qed.
Print Assumptions c48_small_apdu_crash_exact_partial.
Theorem c48_objects_return_partial : forall fuel order envs me dev ip port hdr, reached dev ip port hdr -> present me = false -> valid_oid (dv_id dev) ->
  20 <= dv_maxapdu dev <= 65531 -> (forall m, Permutation (order m) m) ->
  (forall j id, ev_id (envs j) = Some id -> is_byte id /\ answers_read hdr id (envs j) /\ answers_multi hdr fuel id (envs j)) ->
  returns (Objects fuel order envs me dev).
Proof. exact objects_return. Qed.
Print Assumptions c48_objects_return_partial.
(** one object; the answer for its names holds only one property *)
Definition ex_objects_env (names : list result) (k : nat) : env :=
  mkEnv (Some 7) (fun _ _ => mkAtt true (Some (PBytes (match k with
    | O => spec_read_ack 7 (mkOid 8 1) 76 0 [SVal (VUint 1)]
    | S O => spec_readmulti_ack 7 [(mkOid 8 1, [mkResult 76 1 [SVal (VOid (mkOid 0 3))]])]
    | _ => spec_readmulti_ack 7 [(mkOid 0 3, names)]
    end)))).
Example c48_ex : snd (Objects 99 (fun m => m) (ex_objects_env [mkResult 77 whole [SVal (VString [65])]]) None ex_dev) = CPanic
  /\ snd (Objects 99 (fun m => m) (ex_objects_env [mkResult 77 whole [SVal (VUint 1)]; mkResult 28 whole [SVal VNull]]) None ex_dev) = CErr (CWrap CWrongType)
  /\ local ex_dev [10; 0; 0; 1] 47808 /\ valid_oid (dv_id ex_dev).
Proof.
  split; [reflexivity|]. split; [reflexivity|]. split; [unfold local, is_byte; cbn; repeat split; discriminate|unfold valid_oid; cbn; repeat split; discriminate].
Qed.

(** * C49: false: with an advertised maximum below 61 octets reading five names is
    refused; objects of proprietary types get no name. *)
Theorem c49_objects_refuted : exists envs dev envs' ids, 50 = dv_maxapdu dev
  /\ snd (Objects 999 (fun m => m) envs None dev) = CErr (CWrap (CWrap CTooLarge))
  /\ snd (objectList 999 envs None dev) = COk (4%nat, bare ids) /\ length ids = 5%nat
  /\ snd (Objects 999 (fun m => m) envs' None ex_dev) = COk (bare [mkOid 200 1]).
Proof.
  set (ids := [mkOid 0 1; mkOid 0 2; mkOid 0 3; mkOid 0 4; mkOid 0 5]).
  set (ent := fun i => mkResult 76 i [SVal (VOid (entry ids i))]).
  exists (fun k => mkEnv (Some 7) (fun _ _ => mkAtt true (Some (PBytes (match k with
    | O => spec_read_ack 7 (mkOid 8 1) 76 0 [SVal (VUint 5)]
    | S O => spec_readmulti_ack 7 [(mkOid 8 1, [ent 1; ent 2])]
    | S (S O) => spec_readmulti_ack 7 [(mkOid 8 1, [ent 3; ent 4])]
    | _ => spec_readmulti_ack 7 [(mkOid 8 1, [ent 5])] end))))),
    (mkDev (mkOid 8 1) 50 (dv_addr ex_dev)),
    (fun k => mkEnv (Some 7) (fun _ _ => mkAtt true (Some (PBytes (match k with
    | O => spec_read_ack 7 (mkOid 8 1) 76 0 [SVal (VUint 1)]
    | S O => spec_readmulti_ack 7 [(mkOid 8 1, [mkResult 76 1 [SVal (VOid (mkOid 200 1))]])]
    | _ => spec_readmulti_ack 7 [] end))))),
    ids.
  split; [reflexivity|]. split; [vm_compute; reflexivity|]. split; [vm_compute; reflexivity|]. split; [reflexivity|vm_compute; reflexivity].
Qed.
Print Assumptions c49_objects_refuted.
(** Against a device with the object list [ids] that answers every request correctly,
    the object map is completed with names and descriptions of the objects of
    standard types, in groups of five, up to the first group [g] whose request
    exceeds the advertised maximum: then the call fails.  [rest] is what is left
    of the groups. *)
Theorem c49_objects_exact_partial : forall fuel order envs inv me dev ip port hdr ids name desc cs gs rest, reached dev ip port hdr -> present me = false -> valid_oid (dv_id dev) ->
  20 <= dv_maxapdu dev <= 65531 -> (hdr = [1; 4] \/ 40 <= dv_maxapdu dev) -> NoDup ids -> Forall valid_oid ids -> zlen ids < 4294967296 ->
  Forall (fun k => readable (VString (name k)) /\ readable (VString (desc k))) ids ->
  Permutation (order (bare ids)) (bare ids) ->
  chunks (dv_maxapdu dev / readPropRequestSize) (zlen ids) = ROk cs ->
  map (filter standard) (fives (length ids) (map fst (order (bare ids)))) = gs ++ rest ->
  Forall (fun g => zlen hdr + 4 + 11 * zlen g <= dv_maxapdu dev) gs ->
  serves_via hdr fuel (envs 0%nat) (inv 0%nat) (spec_read_request (inv 0%nat) (dv_id dev) 76 0) (spec_read_ack (inv 0%nat) (dv_id dev) 76 0 [SVal (VUint (zlen ids))]) ->
  (forall j c, nth_error cs j = Some c -> let k := (1 + j)%nat in serves_via hdr fuel (envs k) (inv k)
     (spec_readmulti_request (inv k) (list_request (dv_id dev) c)) (spec_readmulti_ack (inv k) (list_answer (dv_id dev) ids c))) ->
  (forall j g, nth_error gs j = Some g -> let k := (S (length cs) + j)%nat in serves_via hdr fuel (envs k) (inv k)
     (spec_readmulti_request (inv k) (names_request g)) (spec_readmulti_ack (inv k) (names_answer name desc g))) ->
  let sent := mkDgram ip port (frame_with hdr (spec_read_request (inv 0%nat) (dv_id dev) 76 0))
       :: frames (list_frame hdr ip port (dv_id dev)) inv 1 cs ++ frames (names_frame hdr ip port) inv (S (length cs)) gs in
  match rest with
  | [] => Objects fuel order envs me dev = (sent, COk (complete name desc ids))
  | g :: _ => let k := (S (length cs) + length gs)%nat in
      dv_maxapdu dev < zlen hdr + 4 + 11 * zlen g -> ev_id (envs k) = Some (inv k) -> is_byte (inv k) ->
      Objects fuel order envs me dev = (sent, CErr (CWrap (CWrap CTooLarge)))
  end.
Proof. exact objects_all. Qed.
Print Assumptions c49_objects_exact_partial.
Example c49_ex :
  snd (Objects 99 (fun m => m) (ex_objects_env [mkResult 77 whole [SVal (VString [65])]; mkResult 28 whole [SVal (VString [66; 67])]]) None ex_station)
  = COk (complete (fun _ => [65]) (fun _ => [66; 67]) [mkOid 0 3])
  /\ complete (fun _ => [65]) (fun _ => [66; 67]) [mkOid 0 3; mkOid 200 1] = [(mkOid 0 3, mkObj [65] [66; 67] (mkOid 0 3) []); (mkOid 200 1, mkObj [] [] (mkOid 200 1) [])]
  /\ serves 99 (ex_objects_env [] 0) 7 (spec_read_request 7 (mkOid 8 1) 76 0) (spec_read_ack 7 (mkOid 8 1) 76 0 [SVal (VUint 1)])
  /\ map (filter standard) (fives 1 [mkOid 0 3]) = [[mkOid 0 3]]
  /\ reached ex_dev [10; 0; 0; 1] 47808 [1; 4] /\ reached ex_station [10; 0; 0; 1] 47808 [1; 36; 7; 209; 1; 5; 255].
Proof.
  split; [reflexivity|]. split; [reflexivity|]. split; [|split; [reflexivity|split]].
  - split; [reflexivity|]. split; [split; [discriminate|reflexivity]|]. split; [repeat constructor|]. intros g _. split; reflexivity.
  - left. split; [reflexivity|]. unfold local, is_byte; cbn; repeat split; discriminate.
  - right. exists 2001, 5. split; [unfold station, is_bytes, is_byte; cbn; repeat split; try discriminate; repeat constructor; discriminate|]. split; reflexivity.
Qed.
(** a device whose only object has a type of the vendor's: the last request names no
    object at all, 129 10 0 10 1 4 and the four octets of its head *)
Example c49_ex_vendor : map g_bytes (skipn 2 (fst (Objects 99 (fun m => m) (fun k => mkEnv (Some 7) (fun _ _ => mkAtt true (Some (PBytes (match k with
    | O => spec_read_ack 7 (mkOid 8 1) 76 0 [SVal (VUint 1)]
    | S O => spec_readmulti_ack 7 [(mkOid 8 1, [mkResult 76 1 [SVal (VOid (mkOid 200 1))]])]
    | _ => spec_readmulti_ack 7 [] end))))) None ex_dev)))
  = [[129; 10; 0; 10; 1; 4; 0; 5; 7; 14]].
Proof. vm_compute. reflexivity. Qed.

(** * C70: false: one property access error in the answer and the values read for
    all other properties are lost; the caller gets that error after two attempts. *)
Theorem c70_property_errors_refuted : exists b ys o rs x, b = spec_failing_ack 7 ys o rs x (spec_close 1) /\ rs <> []
  /\ Forall access_ok ys /\ valid_oid o /\ Forall result_ok rs /\ failure_ok x
  /\ snd (ReadMultiProperty 99 (mkEnv (Some 7) (fun _ _ => mkAtt true (Some (PBytes b)))) None ex_dev
       (mkMPD [read_object (o, [(85, whole); (28, whole)])])) = CErr (CWrap (CDec (EBacnet 2 32))).
Proof.
  eexists. exists [], (mkOid 0 3), [mkResult 85 whole [SVal (VReal 1117192192)]], (mkFailure 28 whole 2 32).
  split; [reflexivity|]. split; [discriminate|]. split; [constructor|]. split; [unfold valid_oid; cbn; repeat split; discriminate|].
  split; [repeat constructor; discriminate|]. split; [repeat split; try discriminate|]. reflexivity.
Qed.
Print Assumptions c70_property_errors_refuted.
Theorem c70_property_error_fails_all_exact_partial : forall fuel e me dev ip port hdr id xs ys o rs x rest, reached dev ip port hdr -> present me = false ->
  ev_id e = Some id -> is_byte id ->
  Forall (fun x => valid_oid (fst x) /\ Forall (fun p => in_u32 (fst p) /\ in_u32 (snd p)) (snd x)) xs ->
  dv_maxapdu dev <= 65531 -> zlen hdr + zlen (spec_readmulti_request id xs) <= dv_maxapdu dev ->
  Forall access_ok ys -> valid_oid o -> Forall result_ok rs -> failure_ok x ->
  (length (spec_failing_ack id ys o rs x rest) <= fuel)%nat ->
  let g := mkDgram ip port (frame_with hdr (spec_readmulti_request id xs)) in
  (forall k, at_sent (ev_att e k g) = true /\ at_reply (ev_att e k g) = Some (PBytes (spec_failing_ack id ys o rs x rest))) ->
  ReadMultiProperty fuel e me dev (mkMPD (map read_object xs)) = ([g; g], CErr (CWrap (CDec (EBacnet (fl_class x) (fl_code x))))).
Proof. exact failing_read. Qed.
Print Assumptions c70_property_error_fails_all_exact_partial.
Example c70_ex : spec_failing_ack 7 [] (mkOid 0 3) [mkResult 85 whole [SVal (VReal 1117192192)]] (mkFailure 28 whole 2 32) (spec_close 1)
  = [48; 7; 14; 12; 0; 0; 0; 3; 30; 41; 85; 78; 68; 66; 151; 0; 0; 79; 41; 28; 94; 145; 2; 145; 32; 95; 31].
Proof. reflexivity. Qed.
