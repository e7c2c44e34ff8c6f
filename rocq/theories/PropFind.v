(** Properties C106, C107: finding devices and reaching them. *)
From Coq Require Import Lia.
From Verif Require Import ModelRun SpecFind SpecWire SpecNet SpecLayers SpecServices SpecObs SpecClient SpecRun ProofsFind.
Open Scope Z_scope.

(** * C106: what one client announces with IAm, another client's WhoIs returns,
    exactly as announced. *)
Theorem c106_instances_meet : forall dest i dip dport, addr_UDPAddr dest = Some (dip, dport) -> addr_ok dest -> iam_ok i ->
  exists g, IAm_frame dest i = ROk (Some g) /\ g_ip g = dip /\ g_port g = dport
  /\ forall known sip sport before after wh, is_ip sip -> is_port sport ->
     silent_on (oid_inst (i_id i)) (published known before) -> requested_low wh <= oid_inst (i_id i) <= requested_high wh ->
     let r := whois_returns wh (published known (before ++ (UDPToAddress sip sport, g_bytes g) :: after)) in
     In (announced i sip sport) r /\ (forall y, In y r -> f_deviceid y = oid_inst (i_id i) -> y = announced i sip sport).
Proof. exact instances_meet. Qed.
Print Assumptions c106_instances_meet.

(** * C107: false for stations behind a router whose address is longer than one
    octet; the requests to them name another station. *)
Theorem c107_found_reached_refuted : exists known sip sport n i s wh x e g, is_ip sip /\ is_port sport /\ npdu_ok n /\ n_netmsg n = false
  /\ n_src n = Some s /\ a_net s <> 0 /\ iam_ok i
  /\ whois_returns wh (published known [(UDPToAddress sip sport, spec_bvlc 11 (spec_npdu n ++ spec_iam i))]) = [x]
  /\ f_id x = i_id i
  /\ fst (ReadProperty e None (device_of x) (request (mkOid 0 1) 85 whole)) = [g]
  /\ g_bytes g = station_frame (a_net s) [1] 2 (255 :: spec_read_request 7 (mkOid 0 1) 85 whole)
  /\ g_bytes g <> station_frame (a_net s) (a_adr s) 255 (spec_read_request 7 (mkOid 0 1) 85 whole).
Proof.
  exists (fun _ => false), [10; 0; 0; 1], 47808, (mkNpdu 1 None (Some (mkAddr 2001 2 0 [] [1; 2])) 0 false 0 false 0 255),
    (mkIam (mkOid 8 77) 480 3 5 (mkAddr 0 0 0 [] [])), (mkAddr 2001 2 0 [] [1; 2]), (mkWho 0 0 false 0).
  eexists. exists (mkEnv (Some 7) (fun _ _ => mkAtt true None)). eexists.
  unfold is_ip, is_port, npdu_ok, iam_ok, opt_addr_ok, addr_ok, valid_oid, in_u32, is_bytes, is_byte. cbn [n_version n_dest n_src n_vendor n_msgtype n_prio n_hop n_netmsg a_net a_len a_adr i_id i_maxapdu i_seg i_vendor oid_type oid_inst].
  split; [split; [repeat constructor; lia|reflexivity]|]. split; [lia|].
  split. { repeat split; try lia. repeat constructor; lia. }
  split; [reflexivity|]. split; [reflexivity|]. split; [lia|]. split; [repeat split; lia|]. split; [vm_compute; reflexivity|].
  split; [reflexivity|]. split; [vm_compute; reflexivity|]. split; [reflexivity|discriminate].
Qed.
Print Assumptions c107_found_reached_refuted.
(** a device on the local network is reached and its answer returned *)
Theorem c107_found_local_partial : forall known sip sport f n i before after wh, is_ip sip -> is_port sport ->
  frame_func f -> npdu_ok n -> n_netmsg n = false -> present (n_src n) = false -> iam_ok i ->
  silent_on (oid_inst (i_id i)) (published known before) -> requested_low wh <= oid_inst (i_id i) <= requested_high wh ->
  In (announced i sip sport) (whois_returns wh (published known (before ++ (UDPToAddress sip sport, spec_bvlc f (spec_npdu n ++ spec_iam i)) :: after)))
  /\ forall fuel e id me o p idx vs, present me = false -> valid_oid o -> valid_property p -> in_u32 idx -> Forall supported vs ->
     serves fuel e id (spec_read_request id o p idx) (spec_read_ack id o p idx vs) ->
     ReadProperty e me (device_of (announced i sip sport)) (request o p idx)
     = ([mkDgram sip sport (local_frame (spec_read_request id o p idx))], COk (answer o p idx (one_or_list (map shown vs)))).
Proof. exact found_local. Qed.
Print Assumptions c107_found_local_partial.
(** a device behind a router gets the requests through the router that forwarded its
    announcement; they name its station exactly when the address is one octet *)
Theorem c107_found_routed_exact_partial : forall known sip sport f n i s before after wh, is_ip sip -> is_port sport ->
  frame_func f -> npdu_ok n -> n_netmsg n = false -> n_src n = Some s -> a_net s <> 0 -> a_adr s <> [] -> iam_ok i ->
  silent_on (oid_inst (i_id i)) (published known before) -> requested_low wh <= oid_inst (i_id i) <= requested_high wh ->
  exists x, In x (whois_returns wh (published known (before ++ (UDPToAddress sip sport, spec_bvlc f (spec_npdu n ++ spec_iam i)) :: after)))
  /\ f_id x = i_id i /\ f_maxapdu x = i_maxapdu i
  /\ forall e me id o p idx g, ev_id e = Some id -> is_byte id -> present me = false -> valid_oid o -> valid_property p -> in_u32 idx ->
     In g (fst (ReadProperty e me (device_of x) (request o p idx))) -> zlen (g_bytes g) <= 65535 ->
     g_ip g = sip /\ g_port g = sport
     /\ (g_bytes g = station_frame (a_net s) (a_adr s) 255 (spec_read_request id o p idx) <-> zlen (a_adr s) = 1).
Proof. exact found_routed. Qed.
Print Assumptions c107_found_routed_exact_partial.

(** Concrete cases. *)
Definition ex_i : iam := mkIam (mkOid 8 1234) 1476 3 260 (mkAddr 0 0 0 [] []).
Example c106_ex : let dest := mkAddr 65535 0 6 [10; 0; 0; 255; 186; 192] [] in
  addr_UDPAddr dest = Some ([10; 0; 0; 255], 47808) /\ addr_ok dest /\ iam_ok ex_i
  /\ option_map (fun g => whois_returns (mkWho 1000 2000 false 0) (published (fun _ => false) [(UDPToAddress [10; 0; 0; 7] 47809, g_bytes g)]))
       (match IAm_frame dest ex_i with ROk g => g | RPanic => None end) = Some [announced ex_i [10; 0; 0; 7] 47809].
Proof.
  cbv zeta. split; [reflexivity|]. split; [unfold addr_ok; cbn; repeat split; try lia; constructor|].
  split; [unfold iam_ok, valid_oid, in_u32; cbn [ex_i i_id i_maxapdu i_seg i_vendor oid_type oid_inst]; repeat split; lia|vm_compute; reflexivity].
Qed.
(** instance out of the range asked for, and a second announcement of the same
    instance, which is not returned *)
Example c106_ex_out : match IAm_frame (mkAddr 65535 0 6 [10; 0; 0; 255; 186; 192] []) ex_i with
  | ROk (Some g) =>
    whois_returns (mkWho 1000 1233 false 0) (published (fun _ => false) [(UDPToAddress [10; 0; 0; 7] 47809, g_bytes g)]) = []
    /\ whois_returns (mkWho 0 0 false 0) (published (fun _ => false) [(UDPToAddress [10; 0; 0; 7] 47809, g_bytes g); (UDPToAddress [10; 0; 0; 8] 47809, g_bytes g)])
       = [announced ex_i [10; 0; 0; 7] 47809]
  | _ => False end.
Proof. vm_compute. split; reflexivity. Qed.
Example c107_ex : let n := mkNpdu 1 None (Some (mkAddr 2001 1 0 [] [9])) 0 false 0 false 0 255 in
  match whois_returns (mkWho 0 0 false 0) (published (fun _ => false) [(UDPToAddress [10; 0; 0; 1] 47808, spec_bvlc 11 (spec_npdu n ++ spec_iam ex_i))]) with
  | [x] => fst (ReadProperty (mkEnv (Some 7) (fun _ _ => mkAtt true (Some (PErr 1 2)))) None (device_of x) (request (mkOid 0 1) 85 whole))
           = [mkDgram [10; 0; 0; 1] 47808 (station_frame 2001 [9] 255 (spec_read_request 7 (mkOid 0 1) 85 whole))]
  | _ => False end.
Proof. vm_compute. reflexivity. Qed.
