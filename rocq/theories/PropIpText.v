(** Texts of IP addresses, where they reach: created devices (C72), constructing a
    client (C134-C136), the validation helpers (C137, C138). *)
From Coq Require Import String.
From Verif Require Import ModelNet SpecWire SpecLayers SpecNet SpecServices SpecObs SpecClient SpecRun SpecIpText ProofsIpText.
Close Scope string_scope.
Import ListNotations.
Open Scope list_scope.
Open Scope Z_scope.

Lemma ex_text : forall s ip, ParseIP s = Some ip -> ip_text s ip. Proof. intros s ip. apply parse_exact. Qed.
Lemma ex_cidr : forall s ip n, ParseCIDR s = Some (ip, n) -> cidr_text s ip n. Proof. intros s ip n. apply cidr_exact. Qed.
Lemma ex_ip : is_ip [192; 168; 9; 7].
Proof. split; [|reflexivity]. repeat constructor; discriminate. Qed.
(** fe80::1 *)
Definition ex_six : list Z := [254; 128; 0; 0; 0; 0; 0; 0; 0; 0; 0; 0; 0; 0; 0; 1].
Lemma ex_pure : pure6 ex_six. Proof. split; [reflexivity|]. intros v4 E. discriminate. Qed.

(** * C72: false: a text that is no address is accepted and 0.0.0.0 contacted *)
Theorem c72_invalid_ip_refuted : exists b, bd_ip b = txt "router-1"%string /\ (forall ip, ~ ip_text (bd_ip b) ip)
  /\ fst (ReadProperty (mkEnv (Some 7) (fun _ _ => mkAtt true None)) (Some (UDPToAddress [10; 0; 0; 9] 47808)) (as_device (NewBDevice b)) (request (mkOid 0 1) 85 whole))
     = [mkDgram [0; 0; 0; 0] 47808 (local_frame (spec_read_request 7 (mkOid 0 1) 85 whole))].
Proof.
  exists (mkBD (mkOid 0 0) 5 (txt "router-1"%string) 0 0 0 0 0 0 addr0 [] []). split; [reflexivity|]. split; [|reflexivity].
  intros ip H. apply parse_exact in H. discriminate.
Qed.
Print Assumptions c72_invalid_ip_refuted.
(** so it is exactly for the texts with no IPv4 address, proper IPv6 addresses too *)
Theorem c72_invalid_ip_exact_partial : forall b, (forall v4, is_ip v4 -> bd_ip b <> spec_dotted v4 /\ ~ ip6_text (bd_ip b) (mapped v4)) -> is_port (bd_port b) ->
  addr_UDPAddr (bd_addr (NewBDevice b)) = Some ([0; 0; 0; 0], effective_port (bd_port b)).
Proof. exact device_unnamed. Qed.
Print Assumptions c72_invalid_ip_exact_partial.
Theorem c72_valid_ip_partial : forall b v4, is_ip v4 -> bd_ip b = spec_dotted v4 \/ ip6_text (bd_ip b) (mapped v4) -> is_port (bd_port b) ->
  0 <= bd_net b < 65536 -> is_byte (bd_mac b) ->
  bd_addr (NewBDevice b) = mkAddr (bd_net b) 0 0 (v4 ++ octets 2 (effective_port (bd_port b))) [bd_mac b].
Proof. exact device_named. Qed.
Print Assumptions c72_valid_ip_partial.
Example c72_ex : map ParseIP [txt "10.0.0.256"%string; txt "10.0.0"%string; txt "10.0.0.05"%string; txt "1::2::3"%string; txt "1:2:3:4:5:6:7"%string; txt "12345::"%string]
    = [None; None; None; None; None; None]
  /\ ParseIP (txt "10.0.0.5"%string) = Some [10; 0; 0; 5] /\ ip6_text (txt "::ffff:c0a8:907"%string) (mapped [192; 168; 9; 7])
  /\ ParseIP (txt "FE80::1"%string) = Some ex_six.
Proof.
  split; [reflexivity|]. split; [reflexivity|]. split; [|reflexivity].
  assert (H : ip_text (txt "::ffff:c0a8:907"%string) (mapped [192; 168; 9; 7])) by (apply ex_text; reflexivity).
  destruct H as [[[_ H] _]|H]; [discriminate|exact H].
Qed.

(** * C134: false: an IPv6 address opens the socket and then panics *)
Theorem c134_construction_refuted : forall ifs,
  NewClient ifs (fun _ => true) (mkCB (txt "fe80::1/64"%string) [] 0 0 0) = RPanic
  /\ NewClient ifs (fun _ => true) (mkCB [] (txt "fe80::1"%string) 100 0 0) = RPanic.
Proof. intro ifs. split; reflexivity. Qed.
Print Assumptions c134_construction_refuted.
(** exactly when the port can be listened on and the address is an IPv6 address with a
    mask - by IP address, the port taking the place of the mask length *)
Theorem c134_construction_exact_partial : forall ifs listen cb, NewClient ifs listen cb = RPanic <->
  (In 47 (cb_iface cb) /\ listen (listened (cb_port cb)) = true /\ exists ip n, cidr_text (cb_iface cb) ip n /\ pure6 ip)
  \/ (cb_iface cb = [] /\ listen (listened (cb_subnet cb)) = true /\ 0 <= effective_port (cb_port cb) <= 128
      /\ exists ip, ip6_text (cb_ip cb) ip /\ pure6 ip).
Proof. exact client_panics. Qed.
Print Assumptions c134_construction_exact_partial.
Example c134_ex : cidr_text (txt "fe80::1/064"%string) ex_six 64 /\ pure6 ex_six
  /\ NewClient (fun _ => None) (fun _ => false) (mkCB (txt "fe80::1/64"%string) [] 0 0 0) = ROk (mkClient None MaxAPDU, false)
  /\ NewClient (fun _ => None) (fun _ => true) (mkCB (txt "fe80::1/129"%string) [] 0 0 0) = ROk (mkClient None MaxAPDU, false).
Proof. split; [apply ex_cidr; reflexivity|]. split; [exact ex_pure|]. split; reflexivity. Qed.

(** * C135 *)
Theorem c135_named_interface : forall ifs listen cb adrs, cb_iface cb <> [] -> ~ In 47 (cb_iface cb) -> ifs (cb_iface cb) = Some adrs -> is_port (cb_port cb) ->
  (forall pre s post ip n, adrs = pre ++ s :: post -> (forall x ip n, In x pre -> cidr_text x ip n -> pure6 ip) -> cidr_text s ip n -> length ip = 4%nat ->
    (listen (Some (effective_port (cb_port cb))) = true ->
     exists l bc, NewClient ifs listen cb = ROk (mkClient (Some l) (if cb_maxpdu cb =? 0 then MaxAPDU else cb_maxpdu cb), true)
     /\ lk_port l = Some (effective_port (cb_port cb)) /\ addr_UDPAddr (lk_my l) = Some (ip, effective_port (cb_port cb))
     /\ addr_UDPAddr (lk_bcast l) = Some (bc, 47808) /\ subnet_bcast ip n bc)
    /\ (listen (Some (effective_port (cb_port cb))) = false ->
        NewClient ifs listen cb = ROk (mkClient None (if cb_maxpdu cb =? 0 then MaxAPDU else cb_maxpdu cb), false)))
  /\ ((forall x ip n, In x adrs -> cidr_text x ip n -> pure6 ip) ->
      NewClient ifs listen cb = ROk (mkClient None (if cb_maxpdu cb =? 0 then MaxAPDU else cb_maxpdu cb), false)).
Proof. exact client_named. Qed.
Print Assumptions c135_named_interface.
Theorem c135_unknown_interface : forall ifs listen cb, cb_iface cb <> [] -> ~ In 47 (cb_iface cb) -> ifs (cb_iface cb) = None ->
  NewClient ifs listen cb = ROk (mkClient None (if cb_maxpdu cb =? 0 then MaxAPDU else cb_maxpdu cb), false).
Proof. exact client_unknown. Qed.
Print Assumptions c135_unknown_interface.
Definition ex_ifs (s : text) : option (list text) :=
  if text_eqb s (txt "eth0"%string) then Some [txt "fe80::1/64"%string; txt "192.168.9.7/22"%string; txt "10.0.0.1/8"%string] else None.
Example c135_ex : exists l, NewClient ex_ifs (fun _ => true) (mkCB (txt "eth0"%string) [] 0 0 0) = ROk (mkClient (Some l) MaxAPDU, true)
  /\ addr_UDPAddr (lk_my l) = Some ([192; 168; 9; 7], 47808) /\ addr_UDPAddr (lk_bcast l) = Some ([192; 168; 11; 255], 47808)
  /\ cidr_text (txt "192.168.9.7/22"%string) [192; 168; 9; 7] 22
  /\ NewClient ex_ifs (fun _ => true) (mkCB (txt "eth1"%string) [] 0 0 0) = ROk (mkClient None MaxAPDU, false).
Proof. eexists. split; [reflexivity|]. split; [reflexivity|]. split; [reflexivity|]. split; [apply ex_cidr; reflexivity|reflexivity]. Qed.

(** * C136: false: an IPv4-mapped text gives the broadcast address 0.0.0.0 *)
Theorem c136_mapped_refuted : exists s v4 n l, cidr_text s (mapped v4) (96 + n) /\ is_ip v4 /\ 0 <= n <= 32
  /\ dataLink (fun _ => true) s 0 = ROk (Some l) /\ addr_UDPAddr (lk_my l) = Some (v4, 47808)
  /\ addr_UDPAddr (lk_bcast l) = Some ([0; 0; 0; 0], 47808) /\ ~ subnet_bcast v4 n [0; 0; 0; 0].
Proof.
  exists (txt "::ffff:192.168.9.7/118"%string), [192; 168; 9; 7], 22. eexists. split; [apply ex_cidr; reflexivity|]. split; [exact ex_ip|]. split; [split; discriminate|].
  split; [reflexivity|]. split; [reflexivity|]. split; [reflexivity|]. intros [_ H]. specialize (H 31%nat (le_n 32)). discriminate.
Qed.
Print Assumptions c136_mapped_refuted.
Theorem c136_mapped_exact_partial : forall listen s v4 n port, cidr_text s (mapped v4) n -> is_ip v4 -> 96 <= n -> is_port port -> listen (Some (effective_port port)) = true ->
  exists l, dataLink listen s port = ROk (Some l)
  /\ lk_port l = Some (effective_port port) /\ addr_UDPAddr (lk_my l) = Some (v4, effective_port port)
  /\ addr_UDPAddr (lk_bcast l) = Some ([0; 0; 0; 0], 47808).
Proof. exact link_mapped. Qed.
Print Assumptions c136_mapped_exact_partial.
Theorem c136_dotted_partial : forall listen s ip n port, cidr_text s ip n -> length ip = 4%nat -> is_port port -> listen (Some (effective_port port)) = true ->
  exists l bc, dataLink listen s port = ROk (Some l)
  /\ lk_port l = Some (effective_port port) /\ addr_UDPAddr (lk_my l) = Some (ip, effective_port port)
  /\ addr_UDPAddr (lk_bcast l) = Some (bc, 47808) /\ subnet_bcast ip n bc.
Proof. exact link_four. Qed.
Print Assumptions c136_dotted_partial.
Example c136_ex : cidr_text (txt "0:0::FFFF:c0A8:907/128"%string) (mapped [192; 168; 9; 7]) 128 /\ cidr_text (txt "192.168.9.7/022"%string) [192; 168; 9; 7] 22.
Proof. split; apply ex_cidr; reflexivity. Qed.

(** * C137: false: the suffix need not belong to the family of the address *)
Theorem c137_suffix_refuted : exists s v4, is_ip v4 /\ s = spec_dotted v4 ++ txt "/128"%string /\ ValidIP s = true.
Proof. exists (txt "192.168.9.7/128"%string), [192; 168; 9; 7]. split; [exact ex_ip|]. split; reflexivity. Qed.
Print Assumptions c137_suffix_refuted.
Theorem c137_valid_ip_exact_partial : forall s, ValidIP s = true <->
  exists t ip, ip_text t ip /\ (s = t \/ (s = t ++ txt "/32"%string /\ In 46 t) \/ s = t ++ txt "/128"%string).
Proof. exact valid_ip. Qed.
Print Assumptions c137_valid_ip_exact_partial.
Example c137_ex : map ValidIP [txt "10.0.0.1"%string; txt "10.0.0.1/32"%string; txt "::1"%string; txt "::1/128"%string; txt "::ffff:10.0.0.1/32"%string] = [true; true; true; true; true]
  /\ map ValidIP [txt "10.0.0.1/24"%string; txt "::1/32"%string; txt "::1/64"%string; txt "10.0.0.1/32/32"%string; txt "/32"%string; txt "1.2.3"%string] = [false; false; false; false; false; false].
Proof. split; reflexivity. Qed.

(** * C138 *)
Theorem c138_valid_cidr : forall s n, ValidCIDR s n = true <-> exists ip, ip_text s ip /\ 0 <= n <= 8 * zlen ip.
Proof. exact valid_cidr. Qed.
Print Assumptions c138_valid_cidr.
Example c138_ex : ValidCIDR (txt "10.0.0.1"%string) 32 = true /\ ValidCIDR (txt "10.0.0.1"%string) 33 = false
  /\ ValidCIDR (txt "::1"%string) 128 = true /\ ValidCIDR (txt "::1"%string) (-1) = false /\ ValidCIDR (txt "eth0"%string) 24 = false.
Proof. repeat split. Qed.
