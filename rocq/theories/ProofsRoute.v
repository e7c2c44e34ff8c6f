(** Requests to routed devices, broadcast choice, Who-Is. *)
From Coq Require Import Lia ZifyBool ZifyNat.
From Verif Require Import ModelClient SpecWire SpecCodec SpecLayers SpecServices SpecObs SpecClient
  ProofsWire ProofsTag ProofsApp ProofsBits ProofsTrunc ProofsCodec ProofsLayers ProofsLayerProps ProofsServices ProofsMulti ProofsTerm ProofsServiceProps ProofsRecv ProofsCall.
Ltac Zify.zify_post_hook ::= Z.div_mod_to_equations.

(** ** C43 *)
Lemma exchange_dgram : forall e k dest data g, In g (fst (exchange e k dest data)) -> send_dgram dest data None = Some g.
Proof.
  intros e k dest data g H. unfold exchange in H. destruct (send_dgram dest data None) as [g'|]; [|contradiction].
  destruct (at_sent _) in H; destruct H as [H|[]]; congruence.
Qed.
Lemma rp_dgram : forall n k e dest data last g, In g (fst (rp_loop n k e dest data last)) -> send_dgram dest data None = Some g.
Proof.
  induction n as [|n IH]; intros k e dest data last g H; [contradiction|]. cbn [rp_loop] in H. pose proof (exchange_dgram e k dest data g) as HX.
  destruct (exchange e k dest data) as [tr r]. cbn [fst] in HX.
  assert (R : forall err, In g (fst (let '(tr', r') := rp_loop n (S k) e dest data err in (tr ++ tr', r'))) -> send_dgram dest data None = Some g).
  { intros err H'. specialize (IH (S k) e dest data err g). destruct (rp_loop n (S k) e dest data err). cbn [fst] in *. apply in_app_or in H'. tauto. }
  destruct r as [err|[b|c x]]; [exact (R _ H)| |exact (HX H)]. destruct (check_apdu _) as [[err|] d]; [exact (R _ H)|].
  destruct (dec_ReadProperty d) as [[[o|] [err|]] d'| |]; try exact (R _ H); exact (HX H).
Qed.
Lemma wp_dgram : forall n k e dest data last g, In g (fst (wp_loop n k e dest data last)) -> send_dgram dest data None = Some g.
Proof.
  induction n as [|n IH]; intros k e dest data last g H; [contradiction|]. cbn [wp_loop] in H. pose proof (exchange_dgram e k dest data g) as HX.
  destruct (exchange e k dest data) as [tr r]. cbn [fst] in HX.
  assert (R : forall err, In g (fst (let '(tr', r') := wp_loop n (S k) e dest data err in (tr ++ tr', r'))) -> send_dgram dest data None = Some g).
  { intros err H'. specialize (IH (S k) e dest data err g). destruct (wp_loop n (S k) e dest data err). cbn [fst] in *. apply in_app_or in H'. tauto. }
  destruct r as [err|[b|c x]]; [exact (R _ H)| |exact (HX H)]. destruct (fst (check_apdu _)) as [err|]; [exact (R _ H)|exact (HX H)].
Qed.
Lemma rpm_dgram : forall fuel n k e dest data last g, In g (fst (rpm_loop fuel n k e dest data last)) -> send_dgram dest data None = Some g.
Proof.
  induction n as [|n IH]; intros k e dest data last g H; [contradiction|]. cbn [rpm_loop] in H. pose proof (exchange_dgram e k dest data g) as HX.
  destruct (exchange e k dest data) as [tr r]. cbn [fst] in HX.
  assert (R : forall err, In g (fst (let '(tr', r') := rpm_loop fuel n (S k) e dest data err in (tr ++ tr', r'))) -> send_dgram dest data None = Some g).
  { intros err H'. specialize (IH (S k) e dest data err g). destruct (rpm_loop fuel n (S k) e dest data err). cbn [fst] in *. apply in_app_or in H'. tauto. }
  destruct r as [err|[b|c x]]; [exact (R _ H)| |exact (R _ H)]. destruct (check_apdu _) as [[err|] d]; [exact (R _ H)|].
  destruct (dec_ReadMultiplePropertyAck fuel d) as [[o [err|]] d'| |]; try exact (R _ H); exact (HX H).
Qed.
Lemma wpm_dgram : forall n k e dest data last g, In g (fst (wpm_loop n k e dest data last)) -> send_dgram dest data None = Some g.
Proof.
  induction n as [|n IH]; intros k e dest data last g H; [contradiction|]. cbn [wpm_loop] in H. pose proof (exchange_dgram e k dest data g) as HX.
  destruct (exchange e k dest data) as [tr r]. cbn [fst] in HX.
  assert (R : forall err, In g (fst (let '(tr', r') := wpm_loop n (S k) e dest data err in (tr ++ tr', r'))) -> send_dgram dest data None = Some g).
  { intros err H'. specialize (IH (S k) e dest data err g). destruct (wpm_loop n (S k) e dest data err). cbn [fst] in *. apply in_app_or in H'. tauto. }
  destruct r as [err|[b|c x]]; [exact (R _ H)| |exact (R _ H)]. destruct (fst (check_apdu _)) as [err|]; [exact (R _ H)|exact (HX H)].
Qed.
Lemma read_dgram : forall e me dev id o p idx hdr g, ev_id e = Some id -> is_byte id -> valid_oid o -> valid_property p -> in_u32 idx ->
  enc_NPDU (request_npdu (addr_SetLength (dv_addr dev)) me) newEncoder = ROk (mkEnc hdr None) ->
  In g (fst (ReadProperty e me dev (request o p idx))) ->
  send_dgram (addr_SetLength (dv_addr dev)) (hdr ++ spec_read_request id o p idx) None = Some g.
Proof.
  intros e me dev id o p idx hdr g Hid Hb Ho Hp Hi EH H. unfold ReadProperty in H. rewrite Hid, EH in H.
  replace (u8 id) with id in H by (unfold u8; unfold is_byte in Hb; lia). rewrite enc_read in H by assumption. apply rp_dgram in H. exact H.
Qed.
Lemma write_dgram : forall e me dev id o p idx v prio hdr g, ev_id e = Some id -> is_byte id -> valid_oid o -> valid_property p -> in_u32 idx ->
  is_byte prio -> writable v -> (binary_pv o p = true -> v = VNull \/ exists n, v = VUint n) ->
  enc_NPDU (request_npdu (addr_SetLength (dv_addr dev)) me) newEncoder = ROk (mkEnc hdr None) ->
  In g (fst (WriteProperty e me dev (write_of o p idx v prio))) ->
  send_dgram (addr_SetLength (dv_addr dev)) (hdr ++ lib_write id o p idx v prio) None = Some g.
Proof.
  intros e me dev id o p idx v prio hdr g Hid Hb Ho Hp Hi Hpr Hv Hbin EH H. unfold WriteProperty in H. rewrite Hid, EH in H.
  replace (u8 id) with id in H by (unfold u8; unfold is_byte in Hb; lia). rewrite enc_write in H by assumption. cbn [eerr] in H. apply wp_dgram in H. exact H.
Qed.
Lemma readmulti_dgram : forall fuel e me dev id xs hdr g, ev_id e = Some id -> is_byte id ->
  Forall (fun x => valid_oid (fst x) /\ Forall (fun p => in_u32 (fst p) /\ in_u32 (snd p)) (snd x)) xs ->
  enc_NPDU (request_npdu (addr_SetLength (dv_addr dev)) me) newEncoder = ROk (mkEnc hdr None) ->
  In g (fst (ReadMultiProperty fuel e me dev (mkMPD (map read_object xs)))) ->
  send_dgram (addr_SetLength (dv_addr dev)) (hdr ++ spec_readmulti_request id xs) None = Some g.
Proof.
  intros fuel e me dev id xs hdr g Hid Hb Hx EH H. unfold ReadMultiProperty in H. rewrite Hid in H.
  destruct (dv_maxapdu dev =? 0); [contradiction|]. rewrite EH in H.
  replace (u8 id) with id in H by (unfold u8; unfold is_byte in Hb; lia). rewrite enc_readmulti in H by assumption.
  destruct (_ <? _) in H; [contradiction|]. apply rpm_dgram in H. exact H.
Qed.
Lemma writemulti_dgram : forall e me dev id xs hdr g, ev_id e = Some id -> is_byte id ->
  Forall (fun x => valid_oid (fst x) /\ Forall writing_ok (snd x)) xs ->
  enc_NPDU (request_npdu (dv_addr dev) me) newEncoder = ROk (mkEnc hdr None) ->
  In g (fst (WriteMultiProperty e me dev (mkMPD (map write_object xs)))) ->
  send_dgram (dv_addr dev) (hdr ++ spec_request id 16 ++ flat_map lib_write_spec xs) None = Some g.
Proof.
  intros e me dev id xs hdr g Hid Hb Hx EH H. unfold WriteMultiProperty in H. rewrite Hid, EH in H.
  replace (u8 id) with id in H by (unfold u8; unfold is_byte in Hb; lia). rewrite enc_writemulti in H by assumption. cbn [eerr] in H.
  destruct (_ <? _) in H; [contradiction|]. apply wpm_dgram in H. exact H.
Qed.

Lemma setlength_station : forall dev net adr, station dev net adr ->
  addr_SetLength (dv_addr dev) = mkAddr net 1 (a_maclen (dv_addr dev)) (a_mac (dv_addr dev)) adr.
Proof. intros dev net adr (<- & <- & _ & _ & Hl). unfold addr_SetLength. replace (0 <? zlen _) with true by lia. reflexivity. Qed.
Lemma station_npdu : forall net adr hop, 0 < net -> zlen adr < 256 ->
  spec_npdu (mkNpdu 1 (Some (mkAddr net (zlen adr) 0 [] adr)) None 0 false 0 true 0 hop)
  = [1; 36] ++ octets 2 net ++ [zlen adr] ++ adr ++ [hop].
Proof.
  intros net adr hop Hn Hl. unfold spec_npdu, spec_opt_addr, present, spec_addr. cbn [n_version n_netmsg n_dest n_src n_reply n_prio n_hop a_net a_adr].
  replace (net =? 0) with false by lia. cbn [negb bit_z app]. rewrite <- !app_assoc. cbn [app]. rewrite ?app_nil_r, <- ?app_assoc. reflexivity.
Qed.
Lemma routed_data : forall net len adr maclen mac apdu, 0 < net < 65536 -> 1 <= zlen adr < 256 ->
  let dest := mkAddr net len maclen mac adr in
  let b := spec_bvlc 10 (lib_header dest ++ apdu) in
  (b = station_frame net adr 255 apdu <-> len = zlen adr)
  /\ (forall a h r, len = 1 -> adr = a :: h :: r -> b = station_frame net [a] h (r ++ 255 :: apdu))
  /\ (forall a r, len = 0 -> adr = a :: r -> b = station_frame net [] a (r ++ 255 :: apdu)).
Proof.
  intros net len adr maclen mac apdu Hn Hl dest b.
  assert (EB : lib_header dest = [1; 36] ++ octets 2 net ++ [len] ++ adr ++ [255]).
  { unfold lib_header, dest. cbn [a_net a_len a_adr]. replace (net =? 0) with false by lia. reflexivity. }
  assert (F : forall x y, spec_bvlc 10 x = spec_bvlc 10 y <-> x = y).
  { intros x y. split; [|congruence]. unfold spec_bvlc. intro H. injection H as H. apply app_inv_head in H || idtac.
    assert (L : length (octets 2 (zlen x + 4) ++ x) = length (octets 2 (zlen y + 4) ++ y)) by (cbn [octets app length] in *; congruence).
    cbn [octets app] in *. congruence. }
  unfold b, station_frame. repeat split.
  - rewrite F, EB, station_npdu by lia. intro H. rewrite <- !app_assoc in H. cbn [app] in H. injection H as H. apply app_inv_head in H || idtac. congruence.
  - intro H. rewrite F, EB, station_npdu by lia. rewrite H. reflexivity.
  - intros a h r -> ->. rewrite F, EB, station_npdu by (cbn; lia). rewrite <- !app_assoc. cbn [app zlen length Z.of_nat Pos.of_succ_nat].
    rewrite <- ?app_assoc. reflexivity.
  - intros a r -> ->. rewrite F, EB, station_npdu by (cbn; lia). rewrite <- !app_assoc. cbn [app zlen length Z.of_nat Pos.of_succ_nat].
    rewrite <- ?app_assoc. reflexivity.
Qed.
Lemma frame_exact : forall dest data ip port g, addr_UDPAddr dest = Some (ip, port) -> 0 < zlen (a_adr dest) ->
  send_dgram dest data None = Some g -> zlen (g_bytes g) <= 65535 -> g = mkDgram ip port (spec_bvlc 10 data).
Proof.
  intros dest data ip port g Hu Ha H Hl. unfold send_dgram in H. rewrite Hu in H. injection H as <-. cbn [g_bytes] in *.
  assert (zlen data <= 65531).
  { assert (E : zlen (send_frame dest data None) = 4 + zlen data).
    { unfold send_frame, enc_BVLC, newEncoder, write, write_u16, write_u8. cbn [eerr ebuf v_data v_len v_func v_type write]. rewrite !zlen_app. reflexivity. }
    lia. }
  rewrite frame_small by assumption. unfold send_func. replace (0 <? zlen (a_adr dest)) with true by lia. reflexivity.
Qed.
(** the four calls *)
Definition framing (b : list Z) (len net : Z) (adr : list Z) (apdu : list Z) : Prop :=
  (b = station_frame net adr 255 apdu <-> zlen adr = len).
Lemma routed_single : forall dev ip port net adr me apdu hdr g,
  routable dev ip port -> station dev net adr -> present me = false ->
  enc_NPDU (request_npdu (addr_SetLength (dv_addr dev)) me) newEncoder = ROk (mkEnc hdr None) ->
  send_dgram (addr_SetLength (dv_addr dev)) (hdr ++ apdu) None = Some g -> zlen (g_bytes g) <= 65535 ->
  g_ip g = ip /\ g_port g = port
  /\ (g_bytes g = station_frame net adr 255 apdu <-> zlen adr = 1)
  /\ (forall a h r, adr = a :: h :: r -> g_bytes g = station_frame net [a] h (r ++ 255 :: apdu)).
Proof.
  intros dev ip port net adr me apdu hdr g Hr Hs Hm EH Hg Hl.
  assert (Hu : addr_UDPAddr (addr_SetLength (dv_addr dev)) = Some (ip, port)) by (rewrite udp_setlength; exact Hr).
  rewrite (setlength_station dev net adr Hs) in *. destruct Hs as (_ & _ & Hn & Hb & Hla).
  rewrite header_exact in EH; [|exact Hm|cbn; lia|unfold is_byte; cbn; lia].
  injection EH as <-. apply (frame_exact _ _ ip port) in Hg; [|exact Hu|cbn; lia|exact Hl]. subst g. cbn [g_ip g_port g_bytes].
  destruct (routed_data net 1 adr (a_maclen (dv_addr dev)) (a_mac (dv_addr dev)) apdu Hn Hla) as (R1 & R2 & _).
  split; [reflexivity|]. split; [reflexivity|]. split; [rewrite R1; lia|]. intros a h r E. exact (R2 a h r eq_refl E).
Qed.
Lemma routed_read : forall e me dev ip port id o p idx net adr g, ev_id e = Some id -> is_byte id -> routable dev ip port -> station dev net adr ->
  present me = false -> valid_oid o -> valid_property p -> in_u32 idx ->
  In g (fst (ReadProperty e me dev (request o p idx))) -> zlen (g_bytes g) <= 65535 ->
  let apdu := spec_read_request id o p idx in
  g_ip g = ip /\ g_port g = port
  /\ (g_bytes g = station_frame net adr 255 apdu <-> zlen adr = 1)
  /\ (forall a h r, adr = a :: h :: r -> g_bytes g = station_frame net [a] h (r ++ 255 :: apdu)).
Proof.
  intros e me dev ip port id o p idx net adr g Hid Hb Hr Hs Hm Ho Hp Hi Hg Hl apdu.
  destruct (request_header (addr_SetLength (dv_addr dev)) me) as [hdr EH].
  eapply routed_single; try eassumption. eapply read_dgram; eassumption.
Qed.
Lemma routed_write : forall e me dev ip port id o p idx v prio net adr g, ev_id e = Some id -> is_byte id -> routable dev ip port -> station dev net adr ->
  present me = false -> valid_oid o -> valid_property p -> in_u32 idx -> is_byte prio -> writable v ->
  (binary_pv o p = true -> v = VNull \/ exists n, v = VUint n) ->
  In g (fst (WriteProperty e me dev (write_of o p idx v prio))) -> zlen (g_bytes g) <= 65535 ->
  let apdu := lib_write id o p idx v prio in
  g_ip g = ip /\ g_port g = port
  /\ (g_bytes g = station_frame net adr 255 apdu <-> zlen adr = 1)
  /\ (forall a h r, adr = a :: h :: r -> g_bytes g = station_frame net [a] h (r ++ 255 :: apdu)).
Proof.
  intros e me dev ip port id o p idx v prio net adr g Hid Hb Hr Hs Hm Ho Hp Hi Hpr Hv Hbin Hg Hl apdu.
  destruct (request_header (addr_SetLength (dv_addr dev)) me) as [hdr EH].
  eapply routed_single; try eassumption. eapply write_dgram; eassumption.
Qed.
Lemma routed_readmulti : forall fuel e me dev ip port id xs net adr g, ev_id e = Some id -> is_byte id -> routable dev ip port -> station dev net adr ->
  present me = false ->
  Forall (fun x => valid_oid (fst x) /\ Forall (fun p => in_u32 (fst p) /\ in_u32 (snd p)) (snd x)) xs ->
  In g (fst (ReadMultiProperty fuel e me dev (mkMPD (map read_object xs)))) -> zlen (g_bytes g) <= 65535 ->
  let apdu := spec_readmulti_request id xs in
  g_ip g = ip /\ g_port g = port
  /\ (g_bytes g = station_frame net adr 255 apdu <-> zlen adr = 1)
  /\ (forall a h r, adr = a :: h :: r -> g_bytes g = station_frame net [a] h (r ++ 255 :: apdu)).
Proof.
  intros fuel e me dev ip port id xs net adr g Hid Hb Hr Hs Hm Hx Hg Hl apdu.
  destruct (request_header (addr_SetLength (dv_addr dev)) me) as [hdr EH].
  eapply routed_single; try eassumption. eapply readmulti_dgram; eassumption.
Qed.
Lemma routed_writemulti : forall e me dev ip port id xs net adr g, ev_id e = Some id -> is_byte id -> routable dev ip port -> station dev net adr ->
  is_byte (a_len (dv_addr dev)) -> present me = false ->
  Forall (fun x => valid_oid (fst x) /\ Forall writing_ok (snd x)) xs ->
  In g (fst (WriteMultiProperty e me dev (mkMPD (map write_object xs)))) -> zlen (g_bytes g) <= 65535 ->
  let apdu := spec_request id 16 ++ flat_map lib_write_spec xs in
  g_ip g = ip /\ g_port g = port
  /\ (g_bytes g = station_frame net adr 255 apdu <-> a_len (dv_addr dev) = zlen adr)
  /\ (forall a r, a_len (dv_addr dev) = 0 -> adr = a :: r -> g_bytes g = station_frame net [] a (r ++ 255 :: apdu)).
Proof.
  intros e me dev ip port id xs net adr g Hid Hb Hr Hs Hlen Hm Hx Hg Hl apdu.
  destruct (request_header (dv_addr dev) me) as [hdr EH].
  assert (Hd : send_dgram (dv_addr dev) (hdr ++ apdu) None = Some g) by (eapply writemulti_dgram; eassumption).
  destruct Hs as (En & Ea & Hn & Hby & Hla).
  rewrite header_exact in EH; [|exact Hm|lia|exact Hlen]. injection EH as <-.
  apply (frame_exact _ _ ip port) in Hd; [|exact Hr|rewrite Ea; lia|exact Hl]. subst g. cbn [g_ip g_port g_bytes].
  destruct (routed_data net (a_len (dv_addr dev)) adr (a_maclen (dv_addr dev)) (a_mac (dv_addr dev)) apdu Hn Hla) as (R1 & _ & R3).
  assert (ED : dv_addr dev = mkAddr net (a_len (dv_addr dev)) (a_maclen (dv_addr dev)) (a_mac (dv_addr dev)) adr).
  { subst. destruct (dv_addr dev). reflexivity. }
  rewrite <- ED in R1, R3. split; [reflexivity|]. split; [reflexivity|]. split; [exact R1|]. intros a r E0 E1. exact (R3 a r E0 E1).
Qed.
(** discovered devices have the length of the UDP source *)
Lemma discovered_len : forall ip port nsrc, a_len (iam_addr (UDPToAddress ip port) nsrc) = 0.
Proof. intros ip port [s|]; cbn; [|reflexivity]. destruct (0 <? a_net s), (0 <? zlen (a_adr s)); reflexivity. Qed.

(** ** C44 *)
Lemma send_func_table : forall dest, 0 <= a_net dest ->
  (send_func dest None = 11 <-> a_adr dest = [] /\ (a_net dest = 65535 \/ a_maclen dest = 0 \/ (0 < a_net dest /\ a_len dest = 0)))
  /\ (send_func dest None <> 11 -> send_func dest None = 10).
Proof.
  intros dest Hn. unfold send_func, addr_IsBroadcast, addr_IsSubBroadcast, GlobalBroadcast, bfUnicast, bfBroadcast.
  assert (A : (0 <? zlen (a_adr dest)) = false <-> a_adr dest = []).
  { unfold zlen. destruct (a_adr dest); cbn [length]; split; intro H; try reflexivity; try discriminate; lia. }
  destruct (0 <? zlen (a_adr dest)) eqn:E.
  - split; [|reflexivity]. split; [discriminate|]. intros [H _]. apply A in H. discriminate.
  - destruct A as [A _]. specialize (A eq_refl).
    destruct ((a_net dest =? 65535) || (a_maclen dest =? 0) || (0 <? a_net dest) && (a_len dest =? 0)) eqn:F.
    + split; [|congruence]. split; [|reflexivity]. intros _. split; [exact A|]. lia.
    + split; [|reflexivity]. split; [discriminate|]. intros [_ H]. lia.
Qed.
Lemma whois_func : forall bip bport wh me g, 0 <= wh_net wh -> length bip = 4%nat ->
  whois_frame (UDPToAddress bip bport) me wh = ROk (Some g) ->
  g_ip g = bip /\ nth 1 (g_bytes g) 0 = (if wh_global wh || (0 <? wh_net wh) then 11 else 10).
Proof.
  intros bip bport wh me g Hn Hl H. unfold whois_frame in H. destruct (whois_range wh) as [lo hi].
  destruct (enc_NPDU _ _) as [en|]; [|discriminate]. cbn [rbind] in H.
  set (data := ebuf _) in H. injection H as H. unfold send_dgram in H.
  assert (EU : addr_UDPAddr (whois_dest (UDPToAddress bip bport) wh) = Some (bip, Z.lor (Z.shiftl (u8 (Z.shiftr (u16 bport) 8)) 8) (u8 (Z.land (u16 bport) 255)))).
  { destruct bip as [|a [|b [|c [|d [|x y]]]]]; try discriminate. reflexivity. }
  rewrite EU in H. injection H as <-. cbn [g_ip g_bytes]. split; [reflexivity|].
  unfold send_frame, enc_BVLC, newEncoder, write, write_u16, write_u8. cbn [eerr ebuf v_data v_len v_func v_type app nth].
  unfold send_func, whois_dest, UDPToAddress, addr_IsBroadcast, addr_IsSubBroadcast, GlobalBroadcast, bfUnicast, bfBroadcast. cbn [a_adr a_net a_maclen a_len zlen length Z.of_nat Z.ltb Z.compare].
  destruct (wh_global wh); [reflexivity|]. cbn [orb]. destruct (wh_net wh =? 65535) eqn:E; destruct (0 <? wh_net wh) eqn:E2; try reflexivity; lia.
Qed.

(** ** C45 *)
Definition unseen (seen : list Z) (x : Z) : Prop := ~ In x seen.
Lemma existsb_in : forall x l, existsb (Z.eqb x) l = true <-> In x l.
Proof.
  intros. rewrite existsb_exists. split; [intros (y & H & E); apply Z.eqb_eq in E; subst; exact H|intro H; exists x; split; [exact H|apply Z.eqb_refl]].
Qed.
Lemma collect_in : forall vs seen x, In x (whois_collect seen vs) <->
  exists pre i post, vs = pre ++ PubIAm i :: post /\ x = found_of i /\ ~ In (oid_inst (i_id i)) seen
  /\ forall j, In (PubIAm j) pre -> oid_inst (i_id j) <> oid_inst (i_id i).
Proof.
  induction vs as [|v vs IH]; intros seen x.
  { split; [contradiction|]. intros (pre & i & post & E & _). destruct pre; discriminate. }
  assert (SKIP : (forall i, v <> PubIAm i) -> whois_collect seen (v :: vs) = whois_collect seen vs) by (intro H; destruct v as [|  |i0]; [reflexivity|reflexivity|exfalso; exact (H i0 eq_refl)]).
  assert (STEP : (forall i, v <> PubIAm i) ->
     ((exists pre i post, vs = pre ++ PubIAm i :: post /\ x = found_of i /\ ~ In (oid_inst (i_id i)) seen
       /\ forall j, In (PubIAm j) pre -> oid_inst (i_id j) <> oid_inst (i_id i)) <->
      (exists pre i post, v :: vs = pre ++ PubIAm i :: post /\ x = found_of i /\ ~ In (oid_inst (i_id i)) seen
       /\ forall j, In (PubIAm j) pre -> oid_inst (i_id j) <> oid_inst (i_id i)))).
  { intro Hv. split.
    - intros (pre & i & post & E & H1 & H2 & H3). exists (v :: pre), i, post. subst vs. repeat split; auto.
      intros j [Hj|Hj]; [exfalso; exact (Hv j Hj)|auto].
    - intros (pre & i & post & E & H1 & H2 & H3). destruct pre as [|v' pre]; [injection E as E _; exfalso; exact (Hv i E)|].
      injection E as -> E. exists pre, i, post. repeat split; auto. intros j Hj. apply H3. right. exact Hj. }
  destruct v as [n|l|i]; [rewrite SKIP, IH by congruence; apply STEP; congruence|rewrite SKIP, IH by congruence; apply STEP; congruence|].
  clear SKIP STEP. cbn [whois_collect]. destruct (existsb (Z.eqb (oid_inst (i_id i))) seen) eqn:E.
  - apply existsb_in in E. rewrite IH. split.
    + intros (pre & i' & post & E1 & H1 & H2 & H3). exists (PubIAm i :: pre), i', post. subst vs. repeat split; auto.
      intros j [Hj|Hj]; [injection Hj as <-; intro C; rewrite C in E; contradiction|auto].
    + intros (pre & i' & post & E1 & H1 & H2 & H3). destruct pre as [|v' pre]; [injection E1 as <- _; contradiction|].
      injection E1 as <- E1. exists pre, i', post. repeat split; auto. intros j Hj. apply H3. right. exact Hj.
  - assert (HN : ~ In (oid_inst (i_id i)) seen) by (rewrite <- existsb_in, E; discriminate).
    cbn [In]. rewrite IH. split.
    + intros [H|(pre & i' & post & E1 & H1 & H2 & H3)].
      * exists [], i, vs. repeat split; auto.
      * exists (PubIAm i :: pre), i', post. subst vs. repeat split; auto; [intro C; apply H2; right; exact C|].
        intros j [Hj|Hj]; [injection Hj as <-; intro C; apply H2; left; exact C|auto].
    + intros (pre & i' & post & E1 & H1 & H2 & H3). destruct pre as [|v' pre]; [injection E1 as <- _; left; auto|].
      injection E1 as <- E1. right. exists pre, i', post. repeat split; auto.
      * intros [C|C]; [|contradiction]. apply (H3 i); [left; reflexivity|exact C].
      * intros j Hj. apply H3. right. exact Hj.
Qed.
Lemma collect_nodup : forall vs seen, NoDup (map f_deviceid (whois_collect seen vs)) /\ forall x, In x (map f_deviceid (whois_collect seen vs)) -> ~ In x seen.
Proof.
  induction vs as [|v vs IH]; intro seen; [split; [constructor|contradiction]|].
  destruct v as [n|l|i]; cbn [whois_collect]; try apply IH.
  destruct (existsb (Z.eqb (oid_inst (i_id i))) seen) eqn:E; [apply IH|].
  destruct (IH (oid_inst (i_id i) :: seen)) as [H1 H2]. cbn [map found_of f_deviceid]. split.
  - constructor; [|exact H1]. intro C. apply H2 in C. apply C. left. reflexivity.
  - intros x [H|H].
    + subst x. rewrite <- existsb_in, E. discriminate.
    + intro C. exact (H2 x H (or_intror C)).
Qed.
Lemma collect_app : forall a b seen, exists rest, whois_collect seen (a ++ b) = whois_collect seen a ++ rest.
Proof.
  induction a as [|v a IH]; intros b seen; [eexists; reflexivity|].
  destruct v as [n|l|i]; cbn [whois_collect app]; try apply IH. destruct (existsb _ seen); [apply IH|].
  destruct (IH b (oid_inst (i_id i) :: seen)) as [rest E]. exists rest. rewrite E. reflexivity.
Qed.
Lemma whois_range_requested : forall wh, whois_sub wh = (requested_low wh, requested_high wh).
Proof.
  intro wh. unfold whois_sub, whois_range, requested_low, requested_high. f_equal; [destruct (wh_low wh <=? 0) eqn:E; lia|].
  destruct (wh_high wh <=? 0) eqn:E; destruct (0 <? wh_high wh) eqn:F; lia.
Qed.
Lemma whois_spec : forall wh published, Forall keyed published ->
  let r := whois_returns wh published in
  NoDup (map f_deviceid r)
  /\ (forall x, In x r <-> exists pre i post, published = pre ++ (oid_inst (i_id i), PubIAm i) :: post
        /\ requested_low wh <= oid_inst (i_id i) <= requested_high wh /\ x = found_of i
        /\ forall k j, In (k, PubIAm j) pre -> oid_inst (i_id j) <> oid_inst (i_id i)).
Proof.
  intros wh published Hk r. unfold r, whois_returns, whois_result. rewrite whois_range_requested. cbn [fst snd].
  set (lo := requested_low wh). set (hi := requested_high wh).
  split; [apply collect_nodup|]. intro x. rewrite collect_in.
  assert (SPLIT : forall pubs, Forall keyed pubs -> forall pre i post, map snd (filter (in_range lo hi) pubs) = pre ++ PubIAm i :: post ->
    exists p q, pubs = p ++ (oid_inst (i_id i), PubIAm i) :: q /\ map snd (filter (in_range lo hi) p) = pre /\ lo <= oid_inst (i_id i) <= hi).
  { clear. induction pubs as [|[k m] pubs IH]; intros Hk pre i post E; [destruct pre; discriminate|].
    apply Forall_cons_iff in Hk. destruct Hk as [Hm Hk]. cbn [filter] in E. destruct (in_range lo hi (k, m)) eqn:ER.
    - cbn [map snd] in E. destruct pre as [|v pre].
      + injection E as -> _. cbn in Hm. subst k. exists [], pubs. split; [reflexivity|]. split; [reflexivity|]. unfold in_range in ER. cbn in ER. lia.
      + injection E as -> E. destruct (IH Hk pre i post E) as (p & q & E1 & E2 & E3). exists ((k, v) :: p), q. subst pubs.
        split; [reflexivity|]. split; [cbn [filter]; rewrite ER; cbn [map snd]; congruence|exact E3].
    - destruct (IH Hk pre i post E) as (p & q & E1 & E2 & E3). exists ((k, m) :: p), q. subst pubs.
      split; [reflexivity|]. split; [cbn [filter]; rewrite ER; exact E2|exact E3]. }
  split.
  - intros (pre & i & post & E & -> & _ & H). destruct (SPLIT published Hk pre i post E) as (p & q & E1 & E2 & E3).
    exists p, i, q. split; [exact E1|]. split; [exact E3|]. split; [reflexivity|]. intros k j Hj C.
    apply (H j); [|exact C]. rewrite <- E2. apply in_map_iff. exists (k, PubIAm j). split; [reflexivity|]. apply filter_In. split; [exact Hj|].
    assert (HK : keyed (k, PubIAm j)). { rewrite Forall_forall in Hk. apply Hk. rewrite E1. apply in_or_app. left. exact Hj. }
    cbn in HK. subst k. unfold in_range. cbn [fst]. rewrite C. lia.
  - intros (pre & i & post & E & Hr & -> & H). exists (map snd (filter (in_range lo hi) pre)), i, (map snd (filter (in_range lo hi) post)).
    split.
    + rewrite E, filter_app, map_app. cbn [filter]. unfold in_range at 2. cbn [fst]. replace ((lo <=? oid_inst (i_id i)) && (oid_inst (i_id i) <=? hi)) with true by lia. reflexivity.
    + split; [reflexivity|]. split; [intros []|]. intros j Hj. apply in_map_iff in Hj. destruct Hj as ([k m] & E2 & Hj). cbn in E2. subst m.
      apply filter_In in Hj. destruct Hj as [Hj _]. apply (H k j Hj).
Qed.
Lemma whois_order : forall wh a b, exists rest, whois_returns wh (a ++ b) = whois_returns wh a ++ rest.
Proof. intros. unfold whois_returns, whois_result. rewrite filter_app, map_app. apply collect_app. Qed.

(** ** C46 *)
Lemma i32_small : forall x, 0 <= x < 2147483648 -> i32 x = x.
Proof. intros. unfold i32. lia. Qed.
Lemma whois_asks : forall bcast me wh ip port, addr_UDPAddr bcast = Some (ip, port) -> addr_ok (whois_dest bcast wh) -> opt_addr_ok me ->
  wh_low wh < 2147483648 -> wh_high wh < 2147483648 ->
  let dest := whois_dest bcast wh in
  let n := mkNpdu 1 (Some dest) me 0 false 0 false 0 255 in
  exists apdu, whois_frame bcast me wh = ROk (Some (mkDgram ip port (spec_bvlc (send_func dest None) (spec_npdu n ++ apdu))))
  /\ forall i, requested_low wh <= i <= requested_high wh -> asks apdu i.
Proof.
  intros bcast me wh ip port Hu Hd Hm Hlo Hhi dest n.
  assert (HN : npdu_ok n).
  { unfold n, npdu_ok. cbn [n_version n_dest n_src n_vendor n_msgtype n_prio n_hop opt_addr_ok]. unfold is_byte. repeat split; try assumption; try lia; apply Hd. }
  pose proof (whois_range_requested wh) as ER. unfold whois_sub in ER.
  unfold whois_frame. fold dest. rewrite ER. fold n. unfold newEncoder. rewrite enc_npdu_spec by exact HN. cbn [rbind app].
  assert (Hl : 0 <= requested_low wh < 2147483648) by (unfold requested_low; lia).
  assert (Hh : 0 <= requested_high wh < 2147483648) by (unfold requested_high; destruct (0 <? wh_high wh) eqn:E; lia).
  rewrite !i32_small by assumption. rewrite enc_whois_spec. cbn [ebuf].
  exists (spec_whois (whois_limits (requested_low wh) (requested_high wh))). split.
  - unfold send_dgram. replace (addr_UDPAddr dest) with (Some (ip, port)) by (symmetry; exact Hu). rewrite frame_small; [reflexivity|].
    rewrite zlen_app. pose proof (npdu_len n HN). unfold whois_limits. destruct (_ && _) eqn:E.
    + unfold spec_whois. rewrite !zlen_app, !ctx_unsigned_len by (unfold in_u32; lia). change (zlen (spec_unconfirmed 8)) with 2.
      pose proof (usize_le4 (requested_low wh) ltac:(unfold in_u32; lia)). pose proof (usize_le4 (requested_high wh) ltac:(unfold in_u32; lia)). lia.
    + change (zlen (spec_whois None)) with 2. lia.
  - intros i Hi. unfold asks, whois_limits. destruct (_ && _); [right; do 2 eexists; split; [reflexivity|exact Hi]|left; reflexivity].
Qed.
