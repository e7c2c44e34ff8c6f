(** The receive loop and network-layer messages (C86-C91).
    [ClientRun size evs] gives the messages handed to the handler when the socket
    yields [evs], and whether the loop still runs. *)
From Verif Require Import ModelRun SpecWire SpecCodec SpecLayers SpecServices SpecObs SpecClient SpecRun
  ProofsServiceProps ProofsRun.

Definition ex_header : npdu := mkNpdu 1 None None 0 false 0 false 0 0.
Definition ex_router : npdu := mkNpdu 1 None None 0 true 1 false 0 0.
Lemma ex_header_ok : npdu_ok ex_header /\ n_netmsg ex_header = false.
Proof. split; [|reflexivity]. unfold npdu_ok, is_byte. cbn. repeat split; try discriminate; auto. Qed.

(** * C86: false.  Requests announce 1476 octets, the receive buffer of a default
    client takes 1476 octets including the 6 or more octets of the lower layers.
    A conforming answer of 1475 octets is cut, and the cut answer keeps the
    ReadPropertyMultiple decoder in its loop for ever.  Exactly the octets that fit
    are delivered. *)
Theorem c86_full_size_reply_refuted : exists o rs, access_ok (o, rs)
  /\ let ack := spec_readmulti_ack 1 [(o, rs)] in
     zlen ack <= 1476
     /\ forall known ip port, length ip = 4%nat -> exists src b got,
        udpReceive 1476 ip port (spec_bvlc 10 (spec_npdu ex_header ++ ack)) = ROk (src, b)
        /\ handleMsg known src b = ([EDeliver 1 (PBytes got)], false)
        /\ got <> ack /\ rpm_hangs got.
Proof. exact full_size_cut. Qed.
Print Assumptions c86_full_size_reply_refuted.
Theorem c86_delivered_exact_partial : forall known size ip port f n t inv svc w, length ip = 4%nat ->
  frame_func f -> npdu_ok n -> n_netmsg n = false -> is_byte t -> t / 16 = 2 \/ t / 16 = 3 -> 7 + zlen (spec_npdu n) <= size ->
  exists src b, udpReceive size ip port (spec_bvlc f (spec_npdu n ++ t :: inv :: svc :: w)) = ROk (src, b)
  /\ handleMsg known src b
     = ([EDeliver inv (PBytes (firstn (Z.to_nat (size - 4 - zlen (spec_npdu n))) (t :: inv :: svc :: w)))], false).
Proof. exact delivered_exact. Qed.
Print Assumptions c86_delivered_exact_partial.
Theorem c86_fitting_reply_partial : forall known size ip port f n t inv svc w, length ip = 4%nat ->
  frame_func f -> npdu_ok n -> n_netmsg n = false -> is_byte t -> t / 16 = 2 \/ t / 16 = 3 ->
  4 + zlen (spec_npdu n) + zlen (t :: inv :: svc :: w) <= size ->
  exists src b, udpReceive size ip port (spec_bvlc f (spec_npdu n ++ t :: inv :: svc :: w)) = ROk (src, b)
  /\ handleMsg known src b = ([EDeliver inv (PBytes (t :: inv :: svc :: w))], false).
Proof. exact fitting_reply. Qed.
Print Assumptions c86_fitting_reply_partial.
Example c86_ex : zlen (spec_npdu ex_header) = 2 /\ (7 + 2 <= 1476) /\ zlen big_ack = 1475.
Proof. repeat split; discriminate || exact big_len || reflexivity. Qed.

(** * C87: false.  A datagram from an IPv6 address crashes the receive loop; from
    every IPv4 address, mapped or not, it is taken with that address. *)
Theorem c87_any_source_refuted : exists ip, length ip = 16%nat /\ is_bytes ip
  /\ forall size port data evs, snd (ClientRun size (SRecv ip port data :: evs)) = Crashed.
Proof.
  exists [254; 128; 0; 0; 0; 0; 0; 0; 0; 0; 0; 0; 0; 0; 0; 1]. split; [reflexivity|]. split; [repeat constructor; discriminate|].
  reflexivity.
Qed.
Print Assumptions c87_any_source_refuted.
Theorem c87_crash_exact_partial : forall size src port data,
  udpReceive size src port data = RPanic <-> ~ exists ip, ipv4_source src ip.
Proof. exact receive_crash. Qed.
Print Assumptions c87_crash_exact_partial.
Theorem c87_ipv4_source_partial : forall size src ip port data, ipv4_source src ip -> is_bytes ip -> 0 <= port < 65536 ->
  exists a b, udpReceive size src port data = ROk (a, b) /\ addr_UDPAddr a = Some (ip, port) /\ a_net a = 0 /\ a_adr a = [].
Proof. exact ipv4_taken. Qed.
Print Assumptions c87_ipv4_source_partial.
Example c87_ex : ipv4_source (mapped [10; 0; 0; 9]) [10; 0; 0; 9] /\ is_bytes [10; 0; 0; 9].
Proof. split; [split; [reflexivity|right; reflexivity]|repeat constructor; discriminate]. Qed.

(** * C88: false.  The first receive error ends the loop for good.  Up to then every
    datagram is handed on once, in order. *)
Theorem c88_receives_again_refuted : exists evs ip port data, ipv4_source ip ip
  /\ forall size, ClientRun size (evs ++ [SRecv ip port data]) = ClientRun size evs /\ snd (ClientRun size evs) = Stopped.
Proof. exists [SErr], [10; 0; 0; 9], 47808, [129]. split; [split; [reflexivity|left; reflexivity]|]. intro. split; reflexivity. Qed.
Print Assumptions c88_receives_again_refuted.
Theorem c88_every_datagram_partial : forall size evs, Forall takes evs -> exists ms, ClientRun size evs = (ms, Running)
  /\ Forall2 (fun e m => match e with SRecv src port data => exists ip, ipv4_source src ip
        /\ m = (UDPToAddress ip port, firstn (Z.to_nat size) data) | SErr => False end) evs ms.
Proof. exact run_all. Qed.
Print Assumptions c88_every_datagram_partial.
Theorem c88_until_error_partial : forall size evs rest, Forall takes evs ->
  ClientRun size (evs ++ SErr :: rest) = (fst (ClientRun size evs), Stopped).
Proof. exact run_until_error. Qed.
Print Assumptions c88_until_error_partial.
Example c88_ex : Forall takes [SRecv [10; 0; 0; 9] 47808 [129; 10; 0; 4]; SRecv (mapped [10; 0; 0; 8]) 47808 []].
Proof.
  constructor; [exists [10; 0; 0; 9]; split; [reflexivity|left; reflexivity]|].
  constructor; [exists [10; 0; 0; 8]; split; [reflexivity|right; reflexivity]|constructor].
Qed.

(** * C89: false.  After a network-layer message the rest of the frame is handled as
    an APDU: the third network of an I-Am-Router-To-Network acknowledges a write.
    Other messages are handled exactly like an APDU with their contents. *)
Theorem c89_network_message_refuted : exists nets, Forall is_net nets /\ forall known src,
  In (EDeliver 5 (PBytes (spec_simple_ack 5 15 ++ [3])))
     (fst (handleMsg known src (spec_bvlc 11 (router_message ex_router nets)))).
Proof. exists [1; 2; 8197; 3843]. split; [repeat constructor; discriminate|]. intros known src. cbn. destruct (known 5); right; left; reflexivity. Qed.
Print Assumptions c89_network_message_refuted.
Theorem c89_handled_as_apdu_exact_partial : forall known src f n mt w, frame_func f -> network_message n mt ->
  mt <> 128 -> mt <> 1 -> mt <> 19 ->
  handleMsg known src (spec_bvlc f (spec_npdu n ++ w)) = handleMsg known src (spec_bvlc f (spec_npdu (plain_header n) ++ w)).
Proof. exact handled_as_apdu. Qed.
Print Assumptions c89_handled_as_apdu_exact_partial.
Theorem c89_no_contents_partial : forall known src f n mt, frame_func f -> network_message n mt ->
  mt <> 128 -> mt <> 1 -> mt <> 19 -> handleMsg known src (spec_bvlc f (spec_npdu n)) = ([], false).
Proof. exact no_contents. Qed.
Print Assumptions c89_no_contents_partial.
Example c89_ex : network_message (mkNpdu 1 None None 0 true 4 false 0 0) 4
  /\ handleMsg (fun _ => true) addr0 (spec_bvlc 11 (spec_npdu (mkNpdu 1 None None 0 true 4 false 0 0) ++ [32; 5; 15]))
     = ([EDeliver 5 (PBytes [32; 5; 15])], false).
Proof. split; [|reflexivity]. split; [|split; reflexivity]. unfold npdu_ok, is_byte. cbn. repeat split; try discriminate; auto. Qed.

(** * C90: false.  Of each announcement the first two networks are found, none if
    it lists a single one. *)
Theorem c90_routers_refuted : exists n nets, network_message n 1 /\ Forall is_net nets /\ exists x, In x nets
  /\ forall known src, ~ In x (nets_of (whoisrouter_result (network_range (published known [(src, spec_bvlc 11 (router_message n nets))])))).
Proof.
  exists ex_router, [2001]. split; [split; [|split; reflexivity]; unfold npdu_ok, is_byte; cbn; repeat split; try discriminate; auto|].
  split; [repeat constructor; discriminate|]. exists 2001. split; [left; reflexivity|]. intros known src C. exact C.
Qed.
Print Assumptions c90_routers_refuted.
Theorem c90_routers_exact_partial : forall known f msgs, frame_func f ->
  Forall (fun x => network_message (fst (snd x)) 1 /\ Forall is_net (snd (snd x))) msgs ->
  nets_of (whoisrouter_result (network_range (published known
    (map (fun x => (fst x, spec_bvlc f (router_message (fst (snd x)) (snd (snd x))))) msgs))))
  = flat_map (fun x => first_two (snd (snd x))) msgs.
Proof. exact routers_all. Qed.
Print Assumptions c90_routers_exact_partial.
Theorem c90_request_partial : forall bcast me ip port, a_net bcast = 0 ->
  match me with Some a => a_net a = 0 | None => True end -> addr_UDPAddr bcast = Some (ip, port) ->
  netmsg_frame 0 bcast me = ROk (Some (mkDgram ip port (spec_bvlc 11 [1; 128; 0]))).
Proof. exact routers_request. Qed.
Print Assumptions c90_request_partial.
Example c90_ex : first_two [2001; 5] = [2001; 5] /\ first_two [2001] = []
  /\ netmsg_frame 0 (UDPToAddress [10; 0; 0; 255] 47808) (Some (UDPToAddress [10; 0; 0; 9] 47808))
     = ROk (Some (mkDgram [10; 0; 0; 255] 47808 [129; 11; 0; 7; 1; 128; 0])).
Proof. repeat split; reflexivity. Qed.

(** * C91 *)
Theorem c91_network_numbers : forall known f msgs, frame_func f ->
  Forall (fun x => network_message (fst (snd x)) 19 /\ is_net (fst (snd (snd x)))) msgs ->
  nets_of (whatnetwork_result (network_range (published known
    (map (fun x => (fst x, spec_bvlc f (number_message (fst (snd x)) (fst (snd (snd x))) (snd (snd (snd x)))))) msgs))))
  = map (fun x => fst (snd (snd x))) msgs.
Proof. exact numbers_all. Qed.
Print Assumptions c91_network_numbers.
Theorem c91_request : forall bcast me ip port, a_net bcast = 0 ->
  match me with Some a => a_net a = 0 | None => True end -> addr_UDPAddr bcast = Some (ip, port) ->
  netmsg_frame 18 bcast me = ROk (Some (mkDgram ip port (spec_bvlc 11 [1; 128; 18]))).
Proof. exact numbers_request. Qed.
Print Assumptions c91_request.
Example c91_ex : let n := mkNpdu 1 None None 0 true 19 false 0 0 in network_message n 19 /\ is_net 2001
  /\ number_message n 2001 1 = [1; 128; 19; 7; 209; 1].
Proof. cbv zeta. split; [split; [|split; reflexivity]; unfold npdu_ok, is_byte; cbn; repeat split; try discriminate; auto|]. split; [split; discriminate|reflexivity]. Qed.
