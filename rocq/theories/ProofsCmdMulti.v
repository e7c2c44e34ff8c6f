(** The command "multi". *)
From Coq Require Import String Lia ZifyBool ZifyNat.
From Verif Require Import ModelCmdMulti SpecCmdMulti SpecCmd SpecNet SpecWire SpecLayers SpecServices SpecObs SpecClient.
From Verif Require Import ProofsWire ProofsCall ProofsServiceProps ProofsAccess ProofsTypes ProofsIpText ProofsNet ProofsCmd.
Close Scope string_scope.
Import ListNotations.
Open Scope list_scope.
Open Scope Z_scope.

(** * The client *)
Lemma link_own : forall listen s port l, dataLink listen s port = ROk (Some l) -> own (Some (lk_my l)).
Proof.
  intros listen s port l H. unfold dataLink in H. destruct (ParseCIDR s) as [[ip n]|] eqn:P; [|discriminate].
  match type of H with (if ?b then _ else _) = _ => destruct b end; [|discriminate].
  destruct (To4 ip) as [v4|] eqn:T; [|discriminate]. injection H as <-. apply cidr_exact in P.
  destruct (to4_some ip v4 (cidr_length _ _ _ P) T) as [L _]. do 2 eexists. split; [exact L|reflexivity].
Qed.
Lemma client_own : forall ifs listen cb c, NewClient ifs listen cb = ROk (c, true) -> exists l, cl_link c = Some l /\ own (Some (lk_my l)).
Proof.
  intros ifs listen cb c H. unfold NewClient in H. cbv zeta in H.
  match type of H with rbind ?x _ = _ => destruct x as [[l|]|] eqn:E end; cbn [rbind] in H; try discriminate.
  injection H as <-. exists l. split; [reflexivity|]. destruct (cb_iface cb) as [|a t].
  - unfold NewUDPDataLinkFromIP in E. exact (link_own _ _ _ _ E).
  - unfold NewUDPDataLink in E. destruct (existsb _ _); [exact (link_own _ _ _ _ E)|]. destruct (FindCIDRAddress _ _); [exact (link_own _ _ _ _ E)|discriminate].
Qed.
Lemma client_none : forall ifs listen cb, (forall c, NewClient ifs listen cb <> ROk (c, true)) ->
  NewClient ifs listen cb = RPanic \/ exists c b, NewClient ifs listen cb = ROk (c, b) /\ cl_link c = None.
Proof.
  intros ifs listen cb H. unfold NewClient in *. cbv zeta in *.
  match goal with |- rbind ?x _ = _ \/ _ => destruct x as [[l|]|] end; cbn [rbind] in *.
  - exfalso. exact (H _ eq_refl).
  - right. do 2 eexists. split; reflexivity.
  - left. reflexivity.
Qed.

(** * The requests *)
Lemma multi_dev : forall f ip n, good_multi f ip -> dv_addr (multi_device f n) = point_addr ip (mf_port f) (mf_net f) (mf_mac f).
Proof.
  intros f ip n (_ & E & Hi & Hp & Hn & Hm & _). unfold multi_device, point_addr. cbn [dv_addr]. unfold ip2bytes. rewrite E, pack_ip by exact Hi. unfold is_port, is_byte in *.
  replace (u16 (mf_port f)) with (mf_port f) by (unfold u16; lia). replace (u16 (mf_net f)) with (mf_net f) by (unfold u16; lia).
  replace (u8 (mf_mac f)) with (mf_mac f) by (unfold u8; lia). rewrite be16_octets by assumption. reflexivity.
Qed.
Lemma multi_req : forall f ip p, good_multi f ip -> multi_data f p = request (mkOid 8 (mf_device f)) p whole.
Proof. intros f ip p (_ & _ & _ & _ & _ & _ & H). unfold multi_data, request. replace (u32 (mf_device f)) with (mf_device f) by (unfold u32; lia). reflexivity. Qed.
Lemma multi_single : forall e me f ip p n, good_multi f ip -> own me -> valid_property p ->
  (forall vs g, device_says e f ip p vs g -> ReadProperty e me (multi_device f n) (multi_data f p) = ([g], COk (answer (mkOid 8 (mf_device f)) p whole (one_or_list (map shown vs)))))
  /\ (device_fails e -> (forall id, ev_id e = Some id -> is_byte id) -> exists gs x, ReadProperty e me (multi_device f n) (multi_data f p) = (gs, CErr x) /\ (length gs <= 1)%nat).
Proof.
  intros e me f ip p n G Hme Hp. pose proof G as (_ & _ & Hi & Hpt & Hn & Hm & Hd). rewrite (multi_req f ip p G).
  assert (Ho : valid_oid (mkOid 8 (mf_device f))) by (unfold valid_oid; cbn; lia).
  assert (Hw : in_u32 whole) by (unfold in_u32, whole; lia).
  destruct (read_at e me (multi_device f n) ip (mf_port f) (mf_net f) (mf_mac f) (mkOid 8 (mf_device f)) p whole (multi_dev f ip n G) Hi Hpt Hn Hm (own_absent me Hme) Ho Hp Hw) as [R0 R].
  split.
  - intros vs g (id & Hid & Hb & Hv & -> & Hs & Hr). destruct (R id Hid Hb) as (T & _ & _ & _ & V). unfold multi_dgram in *.
    rewrite (surjective_pairing (ReadProperty e me _ _)), T, (V Hs vs Hv Hr). reflexivity.
  - intros HF Hb. destruct (ev_id e) as [id|] eqn:Hid; [|rewrite (R0 eq_refl); do 2 eexists; split; [reflexivity|cbn; lia]].
    destruct (R id eq_refl (Hb id eq_refl)) as (T & V1 & V2 & V3 & _). cbv zeta in *. set (g := mkDgram _ _ _) in *.
    rewrite (surjective_pairing (ReadProperty e me _ _)), T.
    destruct (HF 0%nat g) as [X|[X|[X|(c & x & X)]]]; [congruence|rewrite (V1 X)| |].
    + do 2 eexists. split; [reflexivity|cbn; lia].
    + destruct (at_sent (ev_att e 0 g)) eqn:S; [rewrite (V2 eq_refl X)|rewrite (V1 eq_refl)]; do 2 eexists; (split; [reflexivity|cbn; lia]).
    + destruct (at_sent (ev_att e 0 g)) eqn:S; [rewrite (V3 eq_refl c x X)|rewrite (V1 eq_refl)]; do 2 eexists; (split; [reflexivity|cbn; lia]).
Qed.
Lemma asked_fine : Forall (fun x => valid_oid (fst x) /\ Forall (fun p => in_u32 (fst p) /\ in_u32 (snd p)) (snd x)) multi_asked.
Proof. unfold multi_asked, valid_oid, in_u32, whole. repeat constructor; cbn; lia. Qed.
Lemma asked_size : forall id, zlen (spec_readmulti_request id multi_asked) = 40.
Proof. intro id. reflexivity. Qed.
Lemma wanted_asked : multi_wanted = mkMPD (map read_object multi_asked).
Proof. reflexivity. Qed.
(** the last request *)
Lemma multi_last_of : forall fuel e me f ip n id, good_multi f ip -> own me -> in_u32 n -> ev_id e = Some id -> is_byte id ->
  let g := multi_dgram f ip (spec_readmulti_request id multi_asked) in
  let r := ReadMultiProperty fuel e me (multi_device f n) multi_wanted in
  (n = 0 -> r = ([], CErr CZeroApdu))
  /\ (0 < n < multi_size f -> r = ([], CErr CTooLarge))
  /\ (multi_size f <= n -> forall xs, Forall access_ok xs -> (length (spec_readmulti_ack id xs) <= fuel)%nat -> brought e 0 g (spec_readmulti_ack id xs) ->
      r = ([g], COk (map shown_access xs)))
  /\ (multi_size f <= n -> forall xs o rs x rest, Forall access_ok xs -> valid_oid o -> Forall result_ok rs -> failure_ok x ->
      (length (spec_failing_ack id xs o rs x rest) <= fuel)%nat ->
      brought e 0 g (spec_failing_ack id xs o rs x rest) -> brought e 1 g (spec_failing_ack id xs o rs x rest) ->
      r = ([g; g], CErr (CWrap (CDec (EBacnet (fl_class x) (fl_code x)))))).
Proof.
  intros fuel e me f ip n id G Hme Hn Hid Hb g r. pose proof G as (_ & _ & Hi & Hpt & Hnet & Hm & _).
  destruct (point_header ip (mf_port f) (mf_net f) (mf_mac f) me Hnet Hm (own_absent me Hme)) as (hdr & EH & HL & HF).
  assert (HZ : zlen hdr + 40 = multi_size f).
  { pose proof (HF []) as K. rewrite app_nil_r in K. apply (f_equal zlen) in K. unfold multi_size, point_frame, local_frame, station_frame in *.
    unfold spec_npdu, spec_opt_addr, present, spec_addr in K. cbn [n_version n_netmsg n_dest n_src n_reply n_prio n_hop n_msgtype a_net a_adr a_len] in K.
    assert (L2 : forall z, length (octets 2 z) = 2%nat) by (intro; apply octets_length).
    destruct (mf_net f =? 0); unfold spec_bvlc, zlen in *; cbn [negb app length] in K; rewrite ?app_length, ?L2 in K; cbn [app length] in K; rewrite ?app_length, ?L2 in K; cbn [app length] in K; lia. }
  assert (E0 : r = if n =? 0 then ([], CErr CZeroApdu) else if n <? multi_size f then ([], CErr CTooLarge)
                   else rpm_loop fuel 2 0 e (addr_SetLength (point_addr ip (mf_port f) (mf_net f) (mf_mac f))) (hdr ++ spec_readmulti_request id multi_asked) CNoData).
  { unfold r, ReadMultiProperty. rewrite Hid, (multi_dev f ip n G), EH. cbn [dv_maxapdu multi_device].
    replace (u8 id) with id by (unfold u8; unfold is_byte in Hb; lia). rewrite wanted_asked, (enc_readmulti id multi_asked hdr Hb asked_fine). cbn [ebuf].
    rewrite zlen_app, asked_size, HZ. replace (u32 (multi_size f)) with (multi_size f) by (unfold u32, multi_size; destruct (mf_net f =? 0); reflexivity). reflexivity. }
  assert (HS : zlen (hdr ++ spec_readmulti_request id multi_asked) <= 65531) by (rewrite zlen_app, asked_size; lia).
  assert (X := fun k => point_frame_of ip (mf_port f) (mf_net f) (mf_mac f) hdr (spec_readmulti_request id multi_asked) k e Hi Hpt HS HF). cbv zeta in X. fold (multi_dgram f ip (spec_readmulti_request id multi_asked)) in X. fold g in X.
  assert (HP : 0 < multi_size f) by (clear; unfold multi_size; destruct (mf_net f =? 0); lia).
  rewrite E0. clear E0. repeat apply conj.
  - intros ->. reflexivity.
  - intro H. replace (n =? 0) with false by lia. replace (n <? multi_size f) with true by lia. reflexivity.
  - intros H xs HX Hl [Hs Hr]. replace (n =? 0) with false by lia. replace (n <? multi_size f) with false by lia.
    cbn [rpm_loop]. rewrite X, Hs, Hr. destruct (readmulti_ack id xs HX) as (d1 & E1 & E2). destruct (E2 fuel Hl) as (d2 & E3). rewrite E1, E3. reflexivity.
  - intros H xs o rs x rest HX Ho Hrs Hx Hl [Hs Hr] [Hs' Hr']. replace (n =? 0) with false by lia. replace (n <? multi_size f) with false by lia.
    destruct (failing_ack id xs o rs x rest HX Ho Hrs Hx) as (d1 & E1 & E2). destruct (E2 fuel Hl) as (objs & d2 & E3).
    cbn [rpm_loop]. rewrite !X, Hs, Hr, Hs', Hr', E1, E3. reflexivity.
Qed.

(** * The command *)
Lemma multi_starts : forall ifs listen fuel e1 e2 e3 f, mf_list f = false -> starts ifs listen f ->
  exists l, own (Some (lk_my l)) /\ readMulti ifs listen fuel e1 e2 e3 f = multi_calls fuel e1 e2 e3 l f.
Proof.
  intros ifs listen fuel e1 e2 e3 f HL (c & H). destruct (client_own _ _ _ _ H) as (l & E & O). exists l. split; [exact O|].
  unfold readMulti. rewrite HL, H, E. reflexivity.
Qed.
Lemma multi_crashes : forall ifs listen fuel e1 e2 e3 f, mf_list f = false -> ~ starts ifs listen f ->
  readMulti ifs listen fuel e1 e2 e3 f = ([], CPanic).
Proof.
  intros ifs listen fuel e1 e2 e3 f HL H. unfold readMulti. rewrite HL.
  destruct (client_none ifs listen (mkCB (mf_iface f) [] (mf_myport f) 0 0)) as [->|(c & b & -> & ->)]; [|reflexivity..].
  intros c E. apply H. exists c. exact E.
Qed.
Lemma multi_first : forall ifs listen fuel e1 e2 e3 f ip, good_multi f ip -> starts ifs listen f -> device_fails e1 -> (forall id, ev_id e1 = Some id -> is_byte id) ->
  exists gs x, readMulti ifs listen fuel e1 e2 e3 f = (gs, CErr x) /\ (length gs <= 1)%nat.
Proof.
  intros ifs listen fuel e1 e2 e3 f ip G HS HF Hb. destruct (multi_starts ifs listen fuel e1 e2 e3 f (proj1 G) HS) as (l & O & ->).
  destruct (multi_single e1 (Some (lk_my l)) f ip 62 0 G O ltac:(unfold valid_property; lia)) as [_ R]. destruct (R HF Hb) as (gs & x & E & L).
  exists gs, x. split; [|exact L]. unfold multi_calls. rewrite E. reflexivity.
Qed.
Lemma multi_second : forall ifs listen fuel e1 e2 e3 f ip vs g, good_multi f ip -> starts ifs listen f -> device_says e1 f ip 62 vs g ->
  device_fails e2 -> (forall id, ev_id e2 = Some id -> is_byte id) ->
  exists gs x, readMulti ifs listen fuel e1 e2 e3 f = (g :: gs, CErr x) /\ (length gs <= 1)%nat.
Proof.
  intros ifs listen fuel e1 e2 e3 f ip vs g G HS H1 HF Hb. destruct (multi_starts ifs listen fuel e1 e2 e3 f (proj1 G) HS) as (l & O & ->).
  destruct (multi_single e1 (Some (lk_my l)) f ip 62 0 G O ltac:(unfold valid_property; lia)) as [R1 _]. unfold multi_calls. rewrite (R1 vs g H1). cbn [nbind].
  set (n := snd (ToUint32 _)). destruct (multi_single e2 (Some (lk_my l)) f ip 76 n G O ltac:(unfold valid_property; lia)) as [_ R2]. destruct (R2 HF Hb) as (gs & x & E & L).
  exists gs, x. split; [|exact L]. rewrite E. reflexivity.
Qed.
Lemma said_number : forall o p idx vs, snd (ToUint32 (answer o p idx (one_or_list (map shown vs)))) = number_of (Some vs).
Proof.
  intros o p idx vs. unfold ToUint32, first_value, answer, number_of. cbn [pd_object o_props pr_data]. destruct vs as [|v [|w vs]]; [reflexivity| |destruct v as [[]|]; reflexivity].
  destruct v as [v|l]; [destruct v; reflexivity|reflexivity].
Qed.
Lemma number_range : forall vs, Forall supported vs -> in_u32 (number_of (Some vs)).
Proof.
  intros vs H. unfold number_of. destruct vs as [|v [|w vs]]; [unfold in_u32; lia| |destruct v as [[]|]; unfold in_u32; lia].
  apply Forall_inv in H. destruct v as [v|l]; [destruct v; try (unfold in_u32; lia); exact H|unfold in_u32; lia].
Qed.
Lemma multi_third : forall ifs listen fuel e1 e2 e3 f ip vs1 g1 vs2 g2, good_multi f ip -> starts ifs listen f ->
  device_says e1 f ip 62 vs1 g1 -> device_says e2 f ip 76 vs2 g2 ->
  exists me, own me /\ readMulti ifs listen fuel e1 e2 e3 f
    = match ReadMultiProperty fuel e3 me (multi_device f (number_of (Some vs1))) multi_wanted with
      | (tr, COk objs) => (g1 :: g2 :: tr, COk (MShown objs))
      | (tr, CErr x) => (g1 :: g2 :: tr, COk (MFailed x))
      | (tr, CPanic) => (g1 :: g2 :: tr, CPanic)
      | (tr, CDiverge) => (g1 :: g2 :: tr, CDiverge)
      end.
Proof.
  intros ifs listen fuel e1 e2 e3 f ip vs1 g1 vs2 g2 G HS H1 H2. destruct (multi_starts ifs listen fuel e1 e2 e3 f (proj1 G) HS) as (l & O & ->).
  exists (Some (lk_my l)). split; [exact O|]. unfold multi_calls.
  rewrite (proj1 (multi_single e1 (Some (lk_my l)) f ip 62 0 G O ltac:(unfold valid_property; lia)) vs1 g1 H1). cbn [nbind]. rewrite said_number.
  rewrite (proj1 (multi_single e2 (Some (lk_my l)) f ip 76 _ G O ltac:(unfold valid_property; lia)) vs2 g2 H2). cbn [nbind]. unfold multi_last.
  destruct (ReadMultiProperty _ _ _ _ _) as [tr [| | |]]; reflexivity.
Qed.
Section Third.
Context {ifs : text -> option (list text)} {listen : option Z -> bool} {fuel : nat} {e1 e2 e3 : env} {f : mflags} {ip : list Z}
  {vs1 : list sent} {g1 : datagram} {vs2 : list sent} {g2 : datagram} {id : Z}.
Lemma multi_ends : good_multi f ip -> starts ifs listen f -> device_says e1 f ip 62 vs1 g1 -> device_says e2 f ip 76 vs2 g2 -> ev_id e3 = Some id -> is_byte id ->
  let n := number_of (Some vs1) in
  let g := multi_dgram f ip (spec_readmulti_request id multi_asked) in
  let r := readMulti ifs listen fuel e1 e2 e3 f in
  (n = 0 -> r = ([g1; g2], COk (MFailed CZeroApdu)))
  /\ (0 < n < multi_size f -> r = ([g1; g2], COk (MFailed CTooLarge)))
  /\ (multi_size f <= n -> forall xs, Forall access_ok xs -> (length (spec_readmulti_ack id xs) <= fuel)%nat -> brought e3 0 g (spec_readmulti_ack id xs) ->
      r = ([g1; g2; g], COk (MShown (map shown_access xs))))
  /\ (multi_size f <= n -> forall xs o rs x rest, Forall access_ok xs -> valid_oid o -> Forall result_ok rs -> failure_ok x ->
      (length (spec_failing_ack id xs o rs x rest) <= fuel)%nat ->
      brought e3 0 g (spec_failing_ack id xs o rs x rest) -> brought e3 1 g (spec_failing_ack id xs o rs x rest) ->
      r = ([g1; g2; g; g], COk (MFailed (CWrap (CDec (EBacnet (fl_class x) (fl_code x))))))).
Proof.
  intros G HS H1 H2 Hid Hb n g r. destruct (multi_third ifs listen fuel e1 e2 e3 f ip vs1 g1 vs2 g2 G HS H1 H2) as (me & O & E). fold r in E. fold n in E.
  assert (Hn : in_u32 n). { destruct H1 as (? & _ & _ & Hv & _). exact (number_range vs1 Hv). }
  destruct (multi_last_of fuel e3 me f ip n id G O Hn Hid Hb) as (A & B & C & D). fold g in C, D. rewrite E. repeat apply conj.
  - intro X. rewrite (A X). reflexivity.
  - intro X. rewrite (B X). reflexivity.
  - intros X xs HX Hl Hr. rewrite (C X xs HX Hl Hr). reflexivity.
  - intros X xs o rs x rest HX Ho Hrs Hx Hl Hr Hr'. rewrite (D X xs o rs x rest HX Ho Hrs Hx Hl Hr Hr'). reflexivity.
Qed.
Lemma multi_small_of : good_multi f ip -> starts ifs listen f -> device_says e1 f ip 62 vs1 g1 -> device_says e2 f ip 76 vs2 g2 -> ev_id e3 = Some id -> is_byte id ->
  number_of (Some vs1) < multi_size f ->
  readMulti ifs listen fuel e1 e2 e3 f = ([g1; g2], COk (MFailed (if number_of (Some vs1) =? 0 then CZeroApdu else CTooLarge))).
Proof.
  intros G HS H1 H2 Hid Hb H. destruct (multi_ends G HS H1 H2 Hid Hb) as (A & B & _).
  assert (Hn : in_u32 (number_of (Some vs1))) by (destruct H1 as (? & _ & _ & Hv & _); exact (number_range vs1 Hv)).
  destruct (number_of (Some vs1) =? 0) eqn:E; [apply A|apply B]; unfold in_u32 in Hn; lia.
Qed.
End Third.
Lemma multi_small : forall ifs listen fuel e1 e2 e3 f ip vs1 g1 vs2 g2 id,
  good_multi f ip -> starts ifs listen f -> device_says e1 f ip 62 vs1 g1 -> device_says e2 f ip 76 vs2 g2 -> ev_id e3 = Some id -> is_byte id ->
  number_of (Some vs1) < multi_size f ->
  readMulti ifs listen fuel e1 e2 e3 f = ([g1; g2], COk (MFailed (if number_of (Some vs1) =? 0 then CZeroApdu else CTooLarge))).
Proof. intros. eapply multi_small_of; eassumption. Qed.
