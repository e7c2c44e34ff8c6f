(** Proofs about finding devices: C106, C107. *)
From Coq Require Import Lia ZifyBool ZifyNat.
From Verif Require Import ModelRun SpecFind SpecWire SpecNet SpecLayers SpecServices SpecObs SpecClient SpecRun ProofsWire ProofsLayers ProofsLayerProps ProofsServices ProofsServiceProps ProofsRecv ProofsCall ProofsRoute ProofsObjects ProofsTypes.
Open Scope Z_scope.

Lemma published_keyed : forall known frames, Forall keyed (published known frames).
Proof.
  intros known frames. unfold published. apply Forall_flat_map, Forall_forall. intros [src b] _. cbn [fst snd].
  apply Forall_flat_map, Forall_forall. intros e He. unfold handleMsg in He. destruct (dec_BVLC _) as [h d].
  destruct (derr d); [contradiction|]. destruct (_ || _); [|contradiction]. destruct (dec_NPDU d) as [[[n nets] [x|]] d2]; [contradiction|].
  destruct (handle_apdu known src n d2) as [[eff pan] early] eqn:E.
  assert (H : In e ((if n_netmsg n then (if n_msgtype n =? ndpuNetworkIs then [EPubNpdu (net_of (n_src n)) n] else [])
            ++ (if n_msgtype n =? ndpuIamRouterToNetwork then [EPubNets (net_of (n_src n)) nets] else []) else []) ++ eff))
    by (destruct (pan || early); exact He). clear He. apply in_app_or in H. destruct H as [H|H].
  - destruct (n_netmsg n); [|contradiction]. apply in_app_or in H. destruct H as [H|H].
    + destruct (_ =? _); [|contradiction]. destruct H as [<-|[]]. repeat constructor.
    + destruct (_ =? _); [|contradiction]. destruct H as [<-|[]]. repeat constructor.
  - unfold handle_apdu in E. destruct (dec_APDU d2) as [[a [x|]] d3]; [injection E as <- _ _; contradiction|].
    destruct (p_type a =? pduUnconfirmed).
    + destruct (p_uservice a =? usvcIAm); [|injection E as <- _ _; contradiction].
      destruct (dec_IAm _) as [[i [x|]] ?| |]; injection E as <- _ _; try contradiction. destruct H as [<-|[]]. repeat constructor.
    + destruct (_ || _ || _); [injection E as <- _ _; destruct H as [<-|[]]; constructor|].
      destruct (_ =? _); injection E as <- _ _; [destruct H as [<-|[]]; constructor|contradiction].
Qed.
Lemma iam_len : forall i, iam_ok i -> zlen (spec_iam i) <= 40.
Proof.
  intros i (H1 & H2 & H3 & H4). unfold spec_iam, spec_app, spec_unsigned, spec_oid. rewrite !zlen_app. unfold zlen at 3 5 7 9. rewrite !octets_length.
  pose proof (usize_le4 _ H2). pose proof (usize_le4 _ H3). pose proof (usize_le4 _ H4).
  assert (T : forall c t l, t < 15 -> l < 5 -> zlen (spec_tag c t l) = 1).
  { intros c t l Ht Hl. unfold spec_tag. replace (t <? 15) with true by lia. replace (l <? 5) with true by lia. reflexivity. }
  rewrite !T by lia. change (zlen (spec_unconfirmed 0)) with 2. lia.
Qed.
Lemma own_header : forall dest, addr_ok dest -> npdu_ok (mkNpdu 1 (Some dest) None 0 false 0 false 0 255).
Proof.
  intros dest Hd. unfold npdu_ok, is_byte, opt_addr_ok. cbn [n_version n_dest n_src n_vendor n_msgtype n_prio n_hop]. repeat split; try lia; apply Hd.
Qed.
Lemma own_iam_frame : forall dest i ip port, addr_UDPAddr dest = Some (ip, port) -> addr_ok dest -> iam_ok i ->
  exists f, frame_func f /\ IAm_frame dest i
  = ROk (Some (mkDgram ip port (spec_bvlc f (spec_npdu (mkNpdu 1 (Some dest) None 0 false 0 false 0 255) ++ spec_iam i)))).
Proof.
  intros dest i ip port Hu Hd Hi. exists (send_func dest None). split.
  { unfold frame_func, send_func. destruct (0 <? _); [auto|]. destruct (_ || _); auto. }
  unfold IAm_frame, newEncoder. pose proof (own_header dest Hd) as Hn. rewrite enc_npdu_spec by assumption.
  cbn [rbind]. rewrite enc_iam_spec by assumption. cbn [rbind fst ebuf app]. unfold send_dgram. rewrite Hu.
  rewrite send_frame_spec; [reflexivity|discriminate|].
  pose proof (npdu_len _ Hn) as [_ L1]. pose proof (iam_len i Hi). rewrite zlen_app. lia.
Qed.
Lemma found_announced : forall known src f n i before after wh, frame_func f -> npdu_ok n -> n_netmsg n = false -> iam_ok i ->
  silent_on (oid_inst (i_id i)) (published known before) -> requested_low wh <= oid_inst (i_id i) <= requested_high wh ->
  let r := whois_returns wh (published known (before ++ (src, spec_bvlc f (spec_npdu n ++ spec_iam i)) :: after)) in
  let x := found_of (mkIam (i_id i) (i_maxapdu i) (i_seg i) (i_vendor i) (iam_addr src (seen_addr (n_src n)))) in
  In x r /\ (forall y, In y r -> f_deviceid y = oid_inst (i_id i) -> y = x).
Proof.
  intros known src f n i before after wh Hf Hn Hm Hi Hq Hr r x.
  destruct (whois_spec wh _ (published_keyed known (before ++ (src, spec_bvlc f (spec_npdu n ++ spec_iam i)) :: after))) as [ND W].
  fold r in ND, W. assert (Hx : In x r).
  { apply W. exists (published known before), (mkIam (i_id i) (i_maxapdu i) (i_seg i) (i_vendor i) (iam_addr src (seen_addr (n_src n)))), (published known after).
    split; [|split; [exact Hr|split; [reflexivity|exact Hq]]].
    unfold published. rewrite flat_map_app. f_equal. cbn [flat_map fst snd]. rewrite recv_iam by assumption. reflexivity. }
  split; [exact Hx|]. intros y Hy E. clear W. revert ND Hx Hy. clear - E.
  assert (E' : f_deviceid x = oid_inst (i_id i)) by reflexivity. revert E'. generalize x as z, r as l. clear x r. intros z l Ez.
  induction l as [|a l IH]; [contradiction|]. cbn [map]. intros ND Hx Hy. inversion ND as [|? ? Hn Hl]; subst.
  destruct Hx as [->|Hx], Hy as [->|Hy].
  - reflexivity.
  - exfalso. apply Hn. rewrite Ez, <- E. apply in_map. exact Hy.
  - exfalso. apply Hn. rewrite E, <- Ez. apply in_map. exact Hx.
  - apply IH; assumption.
Qed.
(** C106 *)
Lemma instances_meet : forall dest i dip dport, addr_UDPAddr dest = Some (dip, dport) -> addr_ok dest -> iam_ok i ->
  exists g, IAm_frame dest i = ROk (Some g) /\ g_ip g = dip /\ g_port g = dport
  /\ forall known sip sport before after wh, is_ip sip -> is_port sport ->
     silent_on (oid_inst (i_id i)) (published known before) -> requested_low wh <= oid_inst (i_id i) <= requested_high wh ->
     let r := whois_returns wh (published known (before ++ (UDPToAddress sip sport, g_bytes g) :: after)) in
     In (announced i sip sport) r /\ (forall y, In y r -> f_deviceid y = oid_inst (i_id i) -> y = announced i sip sport).
Proof.
  intros dest i dip dport Hu Hd Hi. destruct (own_iam_frame dest i dip dport Hu Hd Hi) as (f & Hf & E). eexists. split; [exact E|].
  split; [reflexivity|]. split; [reflexivity|]. intros known sip sport before after wh Hip Hport Hq Hr. cbn [g_bytes].
  pose proof (found_announced known (UDPToAddress sip sport) f _ i before after wh Hf (own_header dest Hd) eq_refl Hi Hq Hr) as F.
  cbv zeta in F. cbn [n_src seen_addr iam_addr] in F. unfold found_of in F. cbn [i_id i_maxapdu i_seg i_vendor i_addr] in F.
  rewrite (udp_of_link sip sport Hip Hport) in F. exact F.
Qed.
(** C107 *)
Lemma found_local : forall known sip sport f n i before after wh, is_ip sip -> is_port sport ->
  frame_func f -> npdu_ok n -> n_netmsg n = false -> present (n_src n) = false -> iam_ok i ->
  silent_on (oid_inst (i_id i)) (published known before) -> requested_low wh <= oid_inst (i_id i) <= requested_high wh ->
  In (announced i sip sport) (whois_returns wh (published known (before ++ (UDPToAddress sip sport, spec_bvlc f (spec_npdu n ++ spec_iam i)) :: after)))
  /\ forall fuel e id me o p idx vs, present me = false -> valid_oid o -> valid_property p -> in_u32 idx -> Forall supported vs ->
     serves fuel e id (spec_read_request id o p idx) (spec_read_ack id o p idx vs) ->
     ReadProperty e me (device_of (announced i sip sport)) (request o p idx)
     = ([mkDgram sip sport (local_frame (spec_read_request id o p idx))], COk (answer o p idx (one_or_list (map shown vs)))).
Proof.
  intros known sip sport f n i before after wh Hip Hport Hf Hn Hm Hs Hi Hq Hr. split.
  - destruct (found_announced known (UDPToAddress sip sport) f n i before after wh Hf Hn Hm Hi Hq Hr) as [F _].
    assert (E : seen_addr (n_src n) = None) by (unfold seen_addr; rewrite Hs; destruct (n_src n); reflexivity).
    rewrite E in F. cbn [iam_addr] in F. unfold found_of in F. cbn [i_id i_maxapdu i_seg i_vendor i_addr] in F.
    rewrite (udp_of_link sip sport Hip Hport) in F. exact F.
  - intros fuel e id me o p idx vs Hme Ho Hp Hix Hv Hsv. change (local_frame (spec_read_request id o p idx)) with (frame_with [1; 4] (spec_read_request id o p idx)).
    eapply via_read; eauto. left. split; [reflexivity|].
    unfold local, device_of, announced, UDPToAddress, routable. cbn [dv_addr f_addr a_net a_adr a_maclen a_len].
    split; [reflexivity|]. split; [reflexivity|]. split; [reflexivity|]. split; [unfold is_byte; lia|]. exact (udp_of_link sip sport Hip Hport).
Qed.
Lemma found_routed : forall known sip sport f n i s before after wh, is_ip sip -> is_port sport ->
  frame_func f -> npdu_ok n -> n_netmsg n = false -> n_src n = Some s -> a_net s <> 0 -> a_adr s <> [] -> iam_ok i ->
  silent_on (oid_inst (i_id i)) (published known before) -> requested_low wh <= oid_inst (i_id i) <= requested_high wh ->
  exists x, In x (whois_returns wh (published known (before ++ (UDPToAddress sip sport, spec_bvlc f (spec_npdu n ++ spec_iam i)) :: after)))
  /\ f_id x = i_id i /\ f_maxapdu x = i_maxapdu i
  /\ forall e me id o p idx g, ev_id e = Some id -> is_byte id -> present me = false -> valid_oid o -> valid_property p -> in_u32 idx ->
     In g (fst (ReadProperty e me (device_of x) (request o p idx))) -> zlen (g_bytes g) <= 65535 ->
     g_ip g = sip /\ g_port g = sport
     /\ (g_bytes g = station_frame (a_net s) (a_adr s) 255 (spec_read_request id o p idx) <-> zlen (a_adr s) = 1).
Proof.
  intros known sip sport f n i s before after wh Hip Hport Hf Hn Hm Hs Hnet Hadr Hi Hq Hr.
  destruct (found_announced known (UDPToAddress sip sport) f n i before after wh Hf Hn Hm Hi Hq Hr) as [F _].
  eexists. split; [exact F|]. split; [reflexivity|]. split; [reflexivity|].
  intros e me id o p idx g Hid Hb Hme Ho Hp Hix Hg Hl.
  assert (Hok : addr_ok s) by (destruct Hn as (_ & _ & H & _); rewrite Hs in H; exact H).
  assert (ES : seen_addr (n_src n) = Some (mkAddr (a_net s) (zlen (a_adr s)) 0 [] (a_adr s))).
  { rewrite Hs. unfold seen_addr, present. replace (a_net s =? 0) with false by lia. reflexivity. }
  destruct Hok as (Hn1 & _ & Hn2 & Hn3).
  assert (Hz : 0 < zlen (a_adr s)) by (destruct (a_adr s); [congruence|unfold zlen; cbn [length]; lia]).
  assert (ED : iam_addr (UDPToAddress sip sport) (seen_addr (n_src n))
    = mkAddr (a_net s) 0 6 (a_mac (UDPToAddress sip sport)) (a_adr s)).
  { rewrite ES. unfold iam_addr. cbn [a_net a_adr a_len a_maclen a_mac]. replace (0 <? a_net s) with true by lia.
    cbn [a_net a_adr a_len a_maclen a_mac]. replace (0 <? zlen (a_adr s)) with true by lia. reflexivity. }
  edestruct (routed_read e me) as (R1 & R2 & R3 & _); try eassumption.
  { unfold routable, device_of, found_of. cbn [dv_addr f_addr i_addr]. rewrite ED. exact (udp_of_link sip sport Hip Hport). }
  { unfold station, device_of, found_of. cbn [dv_addr f_addr i_addr]. rewrite ED. cbn [a_net a_adr]. repeat split; try lia. exact Hn3. }
  auto.
Qed.
