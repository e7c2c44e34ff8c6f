(** Proofs about the receive loop and network messages. *)
From Verif Require Import ModelRun SpecWire SpecCodec SpecLayers SpecServices SpecObs SpecClient SpecRun
  ProofsWire ProofsTag ProofsApp ProofsLayers ProofsLayerProps ProofsServices ProofsServiceProps ProofsRecv.
From Coq Require Import Lia ZifyBool ZifyNat.

Lemma to4_source : forall src ip, ipv4_source src ip -> To4 src = Some ip.
Proof.
  intros src ip [HL [->| ->]]; unfold To4.
  - unfold zlen. rewrite HL. reflexivity.
  - unfold mapped. destruct ip as [|a [|b [|c [|d [|]]]]]; try discriminate HL. reflexivity.
Qed.
Lemma to4_nil : forall src, To4 src = None <-> ~ exists ip, ipv4_source src ip.
Proof.
  intro src. split.
  - intros H [ip Hip]. rewrite (to4_source src ip Hip) in H. discriminate.
  - intro H. destruct (To4 src) as [ip|] eqn:E; [|reflexivity]. exfalso. apply H. clear H. unfold To4 in E.
    destruct (zlen src =? 4) eqn:E4.
    + inversion E; subst ip. exists src. split; [unfold zlen in E4; lia|left; reflexivity].
    + destruct (zlen src =? 16) eqn:E16; cbn [andb] in E; [|discriminate].
      assert (HL : length src = 16%nat) by (unfold zlen in E16; lia).
      do 16 (destruct src as [|? src]; [discriminate HL|]). destruct src; [|discriminate HL].
      cbn [firstn skipn forallb] in E.
      destruct (_ && _) eqn:EB in E; [|discriminate]. inversion E; subst ip.
      exists [z11; z12; z13; z14]. split; [reflexivity|]. right. unfold mapped. cbn [app].
      repeat (apply (f_equal2 (@cons Z)); [lia|]). reflexivity.
Qed.
Lemma run_all : forall size evs, Forall takes evs -> exists ms,
  ClientRun size evs = (ms, Running)
  /\ Forall2 (fun e m => match e with SRecv src port data => exists ip, ipv4_source src ip
        /\ m = (UDPToAddress ip port, firstn (Z.to_nat size) data) | SErr => False end) evs ms.
Proof.
  intros size evs H. induction H as [|e evs He H IH].
  - exists []. split; [reflexivity|constructor].
  - destruct e as [src port data|]; [|destruct He]. destruct He as [ip Hip]. destruct IH as (ms & E & F).
    exists ((UDPToAddress ip port, firstn (Z.to_nat size) data) :: ms). cbn [ClientRun]. unfold udpReceive.
    rewrite (to4_source src ip Hip), E. split; [reflexivity|]. constructor; [eauto|assumption].
Qed.
Lemma run_app : forall size evs rest, Forall takes evs ->
  ClientRun size (evs ++ rest) = (fst (ClientRun size evs) ++ fst (ClientRun size rest), snd (ClientRun size rest)).
Proof.
  intros size evs rest H. induction H as [|e evs He H IH].
  - cbn. destruct (ClientRun size rest). reflexivity.
  - destruct e as [src port data|]; [|destruct He]. destruct He as [ip Hip]. cbn [ClientRun app]. unfold udpReceive.
    rewrite (to4_source src ip Hip), IH. destruct (ClientRun size evs). reflexivity.
Qed.

(** ** frames whatever their length field says *)
Lemma recv_raw : forall known src f l2 n apdu, frame_func f -> length l2 = 2%nat -> npdu_ok n ->
  (n_netmsg n = true -> n_msgtype n <> 128 /\ n_msgtype n <> 1 /\ n_msgtype n <> 19) -> exists p,
  handleMsg known src (129 :: f :: l2 ++ spec_npdu n ++ apdu) = fst (handle_apdu known src (npdu_seen n) (mkDec apdu p None)).
Proof.
  intros known src f l2 n apdu Hf Hl Hn Hm. unfold handleMsg, dec_BVLC, newDecoder.
  rewrite !decode_u1_ok. rewrite decode_u_ok by (auto; discriminate).
  cbn [decode_n derr v_func].
  destruct (dec_npdu_spec n apdu (Some (last l2 0)) Hn Hm) as [p' E].
  exists p'. rewrite E.
  replace ((f =? bfBroadcast) || (f =? bfUnicast) || (f =? bfForwarded)) with true
    by (destruct Hf as [->| ->]; reflexivity).
  set (pubs := if n_netmsg (npdu_seen n) then _ else _).
  assert (EP : pubs = []).
  { unfold pubs. cbn [npdu_seen n_netmsg n_msgtype]. destruct (n_netmsg n); [|reflexivity].
    destruct (Hm eq_refl) as (H1 & H2 & H3). unfold ndpuNetworkIs, ndpuIamRouterToNetwork.
    replace (n_msgtype n =? 19) with false by lia. replace (n_msgtype n =? 1) with false by lia. reflexivity. }
  rewrite EP. destruct (handle_apdu known src _ _) as [[eff pan] early]. cbn [fst app].
  replace (f =? bfForwarded) with false by (destruct Hf as [->| ->]; reflexivity).
  destruct pan, early; reflexivity.
Qed.
(** handling of an APDU uses only the source of the network header *)
Lemma apdu_any_prev : forall known src n m apdu p q, n_src n = n_src m ->
  handle_apdu known src n (mkDec apdu p None) = handle_apdu known src m (mkDec apdu q None).
Proof.
  intros known src n m apdu p q H. unfold handle_apdu. cbn [dbuf].
  destruct apdu as [|t w].
  - reflexivity.
  - unfold dec_APDU. rewrite !decode_u1_ok. rewrite H. reflexivity.
Qed.
Lemma plain_ok : forall n, npdu_ok n -> npdu_ok (plain_header n).
Proof.
  intros n (Hv & Hd & Hs & Hvd & Hm & Hp & Hh). unfold npdu_ok, plain_header, is_byte in *. cbn. repeat split; try lia; try assumption.
Qed.
Lemma netmsg_as_apdu : forall known src f l2 l2' n w, frame_func f -> length l2 = 2%nat -> length l2' = 2%nat -> npdu_ok n ->
  n_netmsg n = true -> n_msgtype n <> 128 /\ n_msgtype n <> 1 /\ n_msgtype n <> 19 ->
  handleMsg known src (129 :: f :: l2 ++ spec_npdu n ++ w) = handleMsg known src (129 :: f :: l2' ++ spec_npdu (plain_header n) ++ w).
Proof.
  intros known src f l2 l2' n w Hf H2 H2' Hn Hm Ht.
  destruct (recv_raw known src f l2 n w Hf H2 Hn (fun _ => Ht)) as [p E].
  destruct (recv_raw known src f l2' (plain_header n) w Hf H2' (plain_ok n Hn)) as [q E']; [discriminate|].
  rewrite E, E'. rewrite (apdu_any_prev known src (npdu_seen n) (npdu_seen (plain_header n)) w p q); reflexivity.
Qed.

(** ** full-size replies *)
Lemma spec_npdu_len : forall n, 0 <= zlen (spec_npdu n).
Proof. intro n. unfold zlen. lia. Qed.
Lemma cut_frame : forall f n apdu size, 4 + zlen (spec_npdu n) <= size ->
  firstn (Z.to_nat size) (spec_bvlc f (spec_npdu n ++ apdu))
  = 129 :: f :: octets 2 (zlen (spec_npdu n ++ apdu) + 4) ++ spec_npdu n ++ firstn (Z.to_nat (size - 4 - zlen (spec_npdu n))) apdu.
Proof.
  intros f n apdu size H. unfold spec_bvlc.
  pose proof (octets_length 2 (zlen (spec_npdu n ++ apdu) + 4)) as HL.
  destruct (octets 2 (zlen (spec_npdu n ++ apdu) + 4)) as [|a [|b [|]]]; try discriminate HL. cbn [app].
  pose proof (spec_npdu_len n) as HN. unfold zlen in H, HN |- *.
  replace (Z.to_nat size) with (S (S (S (S (length (spec_npdu n) + Z.to_nat (size - 4 - Z.of_nat (length (spec_npdu n)))))))) by lia.
  cbn [firstn]. rewrite firstn_app_2. reflexivity.
Qed.
Lemma cut_delivery : forall known src f n t inv svc w size, frame_func f -> npdu_ok n -> n_netmsg n = false ->
  is_byte t -> t / 16 = 2 \/ t / 16 = 3 -> 7 + zlen (spec_npdu n) <= size ->
  handleMsg known src (firstn (Z.to_nat size) (spec_bvlc f (spec_npdu n ++ t :: inv :: svc :: w)))
  = ([EDeliver inv (PBytes (firstn (Z.to_nat (size - 4 - zlen (spec_npdu n))) (t :: inv :: svc :: w)))], false).
Proof.
  intros known src f n t inv svc w size Hf Hn Hm Ht Hty Hs. rewrite cut_frame by lia.
  destruct (recv_raw known src f (octets 2 (zlen (spec_npdu n ++ t :: inv :: svc :: w) + 4)) n
    (firstn (Z.to_nat (size - 4 - zlen (spec_npdu n))) (t :: inv :: svc :: w)) Hf (octets_length 2 _) Hn) as [p E]; [congruence|].
  rewrite E.
  replace (Z.to_nat (size - 4 - zlen (spec_npdu n))) with (S (S (S (Z.to_nat (size - 7 - zlen (spec_npdu n)))))) by lia.
  cbn [firstn].
  unfold handle_apdu, dec_APDU. rewrite decode_u1_ok, (land240 t Ht).
  replace ((t / 16 * 16 =? pduComplexAck) || (t / 16 * 16 =? pduSimpleAck)) with true.
  2:{ unfold pduComplexAck, pduSimpleAck. destruct Hty as [->| ->]; reflexivity. }
  rewrite !decode_u1_ok. cbn [derr p_type dbuf p_invoke].
  replace (t / 16 * 16 =? pduUnconfirmed) with false by (destruct Hty as [->| ->]; reflexivity).
  replace (_ || _) with true by (destruct Hty as [->| ->]; reflexivity). reflexivity.
Qed.

(** ** network messages whose contents the NPDU decoder reads *)
Lemma dec_npdu_net : forall n rest p, npdu_ok n -> n_netmsg n = true -> n_msgtype n < 128 ->
  exists p', dec_NPDU (mkDec (spec_npdu n ++ rest) p None) =
    let d := mkDec rest p' None in
    let mt := n_msgtype n in
    let '(src, d) := if mt =? ndpuNetworkIs
                     then let '(n, d) := decode_u 2 0 d in (Some (netAddr n), d) else (seen_addr (n_src n), d) in
    if mt =? ndpuIamRouterToNetwork then
      let '(n1, d) := decode_u 2 0 d in
      let '(n2, d) := decode_u 2 n1 d in
      let nets := netAddr n1 :: (if negb (n1 =? n2) then [netAddr n2] else []) in
      ((mkNpdu (n_version n) (seen_addr (n_dest n)) (Some (netAddr n2)) 0 true mt (n_reply n) (n_prio n) (if present (n_dest n) then n_hop n else 0), nets, derr d), d)
    else ((mkNpdu (n_version n) (seen_addr (n_dest n)) src 0 true mt (n_reply n) (n_prio n) (if present (n_dest n) then n_hop n else 0), [], derr d), d).
Proof.
  intros n rest p (Hv & Hd & Hs & Hvd & Hm & Hp & Hh) Hnm Hmt. unfold dec_NPDU, spec_npdu.
  destruct (meta_bits (n_netmsg n) (n_reply n) (present (n_dest n)) (present (n_src n)) (n_prio n) Hp)
    as (M1 & M2 & M3 & M4 & M5 & Mb).
  set (m := _ + _ + n_prio n) in *. cbv zeta in *.
  cbn [app]. rewrite !decode_u1_ok. rewrite M1, M2, M3, M4, M5.
  assert (ED : forall r q, exists q', (if present (n_dest n) then let '(a, d) := dec_Address (mkDec (spec_opt_addr (n_dest n) ++ r) q None) in (Some a, d)
        else (None, mkDec (spec_opt_addr (n_dest n) ++ r) q None)) = (seen_addr (n_dest n), mkDec r q' None)).
  { intros r q. unfold spec_opt_addr, seen_addr. destruct (n_dest n) as [a|]; cbn [present].
    - destruct (negb (a_net a =? 0)); [|eexists; reflexivity].
      destruct (dec_addr_spec a r q Hd) as [q' E]. rewrite E. eexists; reflexivity.
    - eexists; reflexivity. }
  assert (ES : forall r q, exists q', (if present (n_src n) then let '(a, d) := dec_Address (mkDec (spec_opt_addr (n_src n) ++ r) q None) in (Some a, d)
        else (None, mkDec (spec_opt_addr (n_src n) ++ r) q None)) = (seen_addr (n_src n), mkDec r q' None)).
  { intros r q. unfold spec_opt_addr, seen_addr. destruct (n_src n) as [a|]; cbn [present].
    - destruct (negb (a_net a =? 0)); [|eexists; reflexivity].
      destruct (dec_addr_spec a r q Hs) as [q' E]. rewrite E. eexists; reflexivity.
    - eexists; reflexivity. }
  rewrite <- !app_assoc.
  match goal with |- context [mkDec (spec_opt_addr (n_dest n) ++ ?r) ?q None] => destruct (ED r q) as [q1 E1] end.
  rewrite E1. clear E1 ED.
  match goal with |- context [mkDec (spec_opt_addr (n_src n) ++ ?r) ?q None] => destruct (ES r q) as [q2 E2] end.
  rewrite E2. clear E2 ES.
  assert (EH : forall r q, exists q', (if present (n_dest n) then decode_u 1 0 (mkDec ((if present (n_dest n) then [n_hop n] else []) ++ r) q None)
        else (0, mkDec ((if present (n_dest n) then [n_hop n] else []) ++ r) q None))
        = (if present (n_dest n) then n_hop n else 0, mkDec r q' None)).
  { intros r q. destruct (present (n_dest n)); cbn [app]; [rewrite decode_u1_ok|]; eexists; reflexivity. }
  match goal with |- context [mkDec ((if present (n_dest n) then _ else _) ++ ?r) ?q None] => destruct (EH r q) as [q3 E3] end.
  rewrite E3. clear E3 EH. rewrite Hnm. cbn [app]. rewrite decode_u1_ok.
  replace (128 <=? n_msgtype n) with false by lia. replace (128 <? n_msgtype n) with false by lia.
  cbn [app]. eexists. reflexivity.
Qed.
Lemma bvlc_open : forall known src f body, frame_func f -> exists p,
  handleMsg known src (spec_bvlc f body) =
    let '((n, nets, err), d) := dec_NPDU (mkDec body p None) in
    match err with
    | Some _ => ([], false)
    | None =>
      let pubs := if n_netmsg n then
            (if n_msgtype n =? ndpuNetworkIs then [EPubNpdu (net_of (n_src n)) n] else [])
            ++ (if n_msgtype n =? ndpuIamRouterToNetwork then [EPubNets (net_of (n_src n)) nets] else [])
          else [] in
      let '((eff, panicked), _) := handle_apdu known src n d in (pubs ++ eff, panicked)
    end.
Proof.
  intros known src f body Hf. unfold handleMsg. rewrite bvlc_head. cbn [derr v_func].
  replace ((f =? bfBroadcast) || (f =? bfUnicast) || (f =? bfForwarded)) with true by (destruct Hf as [->| ->]; reflexivity).
  exists (Some (last (octets 2 (zlen body + 4)) 0)). destruct (dec_NPDU _) as [[[n nets] [e|]] d]; [reflexivity|].
  destruct (handle_apdu known src n d) as [[eff pan] early].
  replace (f =? bfForwarded) with false by (destruct Hf as [->| ->]; reflexivity).
  destruct pan, early; reflexivity.
Qed.
(** the APDU part never publishes network messages *)
Lemma apdu_no_net : forall known src n d e, In e (fst (fst (handle_apdu known src n d))) -> ~ pub_net e.
Proof.
  intros known src n d e H C. unfold handle_apdu in H. destruct (dec_APDU d) as [[a [er|]] d']; [contradiction|].
  destruct (p_type a =? pduUnconfirmed).
  - destruct (p_uservice a =? usvcIAm); [|contradiction].
    destruct (dec_IAm _) as [[i [er|]] d2| |]; cbn [fst In] in H; try contradiction. destruct H as [<-|[]]. exact C.
  - destruct (_ || _); cbn [fst In] in H; [destruct H as [<-|[]]; exact C|].
    destruct (_ =? pduError); cbn [fst In] in H; [destruct H as [<-|[]]; exact C|contradiction].
Qed.

Lemma pubs_apdu : forall known src n d x, In x (flat_map pub_of (fst (fst (handle_apdu known src n d)))) -> exists i, snd x = PubIAm i.
Proof.
  intros known src n d x H. apply in_flat_map in H. destruct H as (e & He & Hx). pose proof (apdu_no_net known src n d e He) as HN.
  destruct e; cbn [pub_of In] in Hx; try contradiction; try (exfalso; apply HN; exact I). destruct Hx as [<-|[]]. eexists. reflexivity.
Qed.
(** what a network subscriber sees of I-Am announcements *)
Definition only_iam (ps : list (Z * pub)) : Prop := forall x, In x ps -> exists i, snd x = PubIAm i.
Lemma iam_no_routers : forall ps, only_iam ps -> whoisrouter_result (network_range ps) = [].
Proof.
  intros ps H. unfold network_range. induction ps as [|x ps IH]; [reflexivity|]. cbn [filter].
  assert (IH' := IH (fun y Hy => H y (or_intror Hy))). destruct (in_range 1 65534 x); [|exact IH'].
  cbn [map]. unfold whoisrouter_result in *. cbn [flat_map]. destruct (H x (or_introl eq_refl)) as [i E]. rewrite E, IH'. reflexivity.
Qed.
Lemma iam_no_numbers : forall ps, only_iam ps -> whatnetwork_result (network_range ps) = [].
Proof.
  intros ps H. unfold network_range. induction ps as [|x ps IH]; [reflexivity|]. cbn [filter].
  assert (IH' := IH (fun y Hy => H y (or_intror Hy))). destruct (in_range 1 65534 x); [|exact IH'].
  cbn [map]. unfold whatnetwork_result in *. cbn [flat_map]. destruct (H x (or_introl eq_refl)) as [i E]. rewrite E, IH'. reflexivity.
Qed.
Lemma range_app : forall a b, network_range (a ++ b) = network_range a ++ network_range b.
Proof. intros. unfold network_range. rewrite filter_app, map_app. reflexivity. Qed.
Lemma routers_app : forall a b, whoisrouter_result (a ++ b) = whoisrouter_result a ++ whoisrouter_result b.
Proof. intros. apply flat_map_app. Qed.
Lemma numbers_app : forall a b, whatnetwork_result (a ++ b) = whatnetwork_result a ++ whatnetwork_result b.
Proof. intros. apply flat_map_app. Qed.

Lemma router_pubs : forall known src f n nets, frame_func f -> network_message n 1 -> Forall is_net nets ->
  nets_of (whoisrouter_result (network_range (flat_map pub_of (fst (handleMsg known src (spec_bvlc f (router_message n nets)))))))
  = first_two nets.
Proof.
  intros known src f n nets Hf (Hn & Hm & Ht) Hnets. unfold router_message.
  destruct (bvlc_open known src f (spec_npdu n ++ flat_map (octets 2) nets) Hf) as [p E]. rewrite E. clear E.
  destruct (dec_npdu_net n (flat_map (octets 2) nets) p Hn Hm ltac:(lia)) as [p' E]. rewrite E. clear E. cbv zeta.
  rewrite Ht. change (1 =? ndpuNetworkIs) with false. change (1 =? ndpuIamRouterToNetwork) with true. cbv iota.
  destruct nets as [|a [|b rest]].
  - reflexivity.
  - inversion Hnets as [|? ? Ha _]; subst. unfold is_net in Ha. cbn [flat_map]. rewrite decode_u_octets by (simpl; try congruence; lia). reflexivity.
  - inversion Hnets as [|? ? Ha Hn2]; inversion Hn2 as [|? ? Hb _]; subst. unfold is_net in Ha, Hb. cbn [flat_map].
    rewrite decode_u_octets by (simpl; try congruence; lia). rewrite decode_u_octets by (simpl; try congruence; lia).
    cbn [derr n_netmsg n_msgtype]. change (1 =? ndpuNetworkIs) with false. change (1 =? ndpuIamRouterToNetwork) with true. cbv iota.
    match goal with |- context [handle_apdu ?k ?s ?x ?d] => pose proof (pubs_apdu k s x d) as HP; destruct (handle_apdu k s x d) as [[eff pan] early] end.
    cbn [fst] in HP |- *. rewrite !flat_map_app. cbn [flat_map pub_of app n_src net_of a_net netAddr]. 
    match goal with |- context [network_range (?x :: flat_map pub_of eff)] => change (x :: flat_map pub_of eff) with ([x] ++ flat_map pub_of eff) end.
    rewrite range_app, routers_app, (iam_no_routers _ HP), app_nil_r.
    unfold network_range. cbn [filter]. unfold in_range. cbn [fst].
    replace ((1 <=? b) && (b <=? 65534)) with true by lia. cbn [map snd]. unfold whoisrouter_result. cbn [flat_map].
    rewrite app_nil_r. unfold first_two. destruct (a =? b); reflexivity.
Qed.
Lemma routers_all : forall known f msgs, frame_func f ->
  Forall (fun x => network_message (fst (snd x)) 1 /\ Forall is_net (snd (snd x))) msgs ->
  nets_of (whoisrouter_result (network_range (published known
    (map (fun x => (fst x, spec_bvlc f (router_message (fst (snd x)) (snd (snd x))))) msgs))))
  = flat_map (fun x => first_two (snd (snd x))) msgs.
Proof.
  intros known f msgs Hf H. induction H as [|[src [n nets]] msgs [H1 H2] H IH]; [reflexivity|].
  unfold published in *. cbn [map flat_map fst snd] in *. rewrite range_app, routers_app. unfold nets_of in *. rewrite map_app, IH.
  f_equal. apply router_pubs; assumption.
Qed.
Lemma number_pubs : forall known src f n net flag, frame_func f -> network_message n 19 -> is_net net ->
  nets_of (whatnetwork_result (network_range (flat_map pub_of (fst (handleMsg known src (spec_bvlc f (number_message n net flag)))))))
  = [net].
Proof.
  intros known src f n net flag Hf (Hn & Hm & Ht) Hnet. unfold number_message, is_net in *.
  destruct (bvlc_open known src f (spec_npdu n ++ octets 2 net ++ [flag]) Hf) as [p E]. rewrite E. clear E.
  destruct (dec_npdu_net n (octets 2 net ++ [flag]) p Hn Hm ltac:(lia)) as [p' E]. rewrite E. clear E. cbv zeta.
  rewrite Ht. change (19 =? ndpuNetworkIs) with true. change (19 =? ndpuIamRouterToNetwork) with false. cbv iota.
  rewrite decode_u_octets by (simpl; try congruence; lia). cbn [derr n_netmsg n_msgtype].
  change (19 =? ndpuNetworkIs) with true. change (19 =? ndpuIamRouterToNetwork) with false. cbv iota.
  match goal with |- context [handle_apdu ?k ?s ?x ?d] => pose proof (pubs_apdu k s x d) as HP; destruct (handle_apdu k s x d) as [[eff pan] early] end.
  cbn [fst] in HP |- *. rewrite !flat_map_app. cbn [flat_map pub_of app n_src net_of a_net netAddr].
  match goal with |- context [network_range (?x :: flat_map pub_of eff)] => change (x :: flat_map pub_of eff) with ([x] ++ flat_map pub_of eff) end.
  rewrite range_app, numbers_app, (iam_no_numbers _ HP), app_nil_r.
  unfold network_range. cbn [filter]. unfold in_range. cbn [fst].
  replace ((1 <=? net) && (net <=? 65534)) with true by lia. reflexivity.
Qed.
Lemma numbers_all : forall known f msgs, frame_func f ->
  Forall (fun x => network_message (fst (snd x)) 19 /\ is_net (fst (snd (snd x)))) msgs ->
  nets_of (whatnetwork_result (network_range (published known
    (map (fun x => (fst x, spec_bvlc f (number_message (fst (snd x)) (fst (snd (snd x))) (snd (snd (snd x)))))) msgs))))
  = map (fun x => fst (snd (snd x))) msgs.
Proof.
  intros known f msgs Hf H. induction H as [|[src [n [net flag]]] msgs [H1 H2] H IH]; [reflexivity|].
  unfold published in *. cbn [map flat_map fst snd] in *. rewrite range_app, numbers_app. unfold nets_of in *. rewrite map_app, IH.
  change (net :: ?l) with ([net] ++ l). f_equal. apply number_pubs; assumption.
Qed.

Lemma netmsg_request : forall mt bcast me ip port, 0 <= mt < 128 -> a_net bcast = 0 ->
  match me with Some a => a_net a = 0 | None => True end -> addr_UDPAddr bcast = Some (ip, port) ->
  netmsg_frame mt bcast me = ROk (Some (mkDgram ip port (spec_bvlc 11 [1; 128; mt]))).
Proof.
  intros mt bcast me ip port Hmt Hb Hme Hu. unfold netmsg_frame.
  assert (E : enc_NPDU (mkNpdu 1 (Some bcast) me 0 true mt false 0 255) newEncoder = ROk (mkEnc [1; 128; mt] None)).
  { unfold enc_NPDU. rewrite npdu_meta_spec by (cbn; lia). cbn [n_netmsg n_dest n_src n_reply n_prio n_version n_msgtype n_hop].
    assert (P1 : present (Some bcast) = false) by (unfold present; rewrite Hb; reflexivity).
    assert (P2 : present me = false) by (unfold present; destruct me as [a|]; [rewrite Hme|]; reflexivity).
    rewrite P1, P2. change (bit_z true * 128 + bit_z false * 32 + bit_z false * 8 + bit_z false * 4 + 0) with 128.
    change (checkMask 128 maskDest) with false. change (checkMask 128 maskSrc) with false. change (checkMask 128 maskNetMsg) with true.
    cbn [rbind]. replace (128 <=? mt) with false by lia. unfold newEncoder. rewrite !write_u8_ok by lia. reflexivity. }
  rewrite E. cbn [rbind]. unfold send_dgram. rewrite Hu. cbn [ebuf]. rewrite send_frame_spec; [reflexivity| |unfold zlen; cbn; lia].
  intros b Hbb. inversion Hbb. split; discriminate || reflexivity.
Qed.
(** a full-size ReadPropertyMultiple answer and its first 1470 octets *)
Definition big_values : list sent := repeat (SVal (VReal 1117126656)) 291 ++ [SVal (VUint 256)].
Definition big_ack : list Z :=
  spec_readmulti_ack 1 [(mkOid 8 1, [mkResult 87 whole (big_values ++ [SVal (VUint 256)])])].
Lemma big_cut : firstn 1470 big_ack = cut_ack 1 (mkOid 8 1) 87 big_values.
Proof. vm_compute. reflexivity. Qed.
Lemma big_len : zlen big_ack = 1475.
Proof. vm_compute. reflexivity. Qed.
Lemma big_supported : Forall supported big_values.
Proof.
  unfold big_values. apply Forall_app. split; [|repeat constructor; discriminate].
  apply Forall_forall. intros x Hx. apply repeat_spec in Hx. subst x. repeat constructor; discriminate.
Qed.
Lemma delivered_exact : forall known size ip port f n t inv svc w, length ip = 4%nat ->
  frame_func f -> npdu_ok n -> n_netmsg n = false -> is_byte t -> t / 16 = 2 \/ t / 16 = 3 -> 7 + zlen (spec_npdu n) <= size ->
  exists src b, udpReceive size ip port (spec_bvlc f (spec_npdu n ++ t :: inv :: svc :: w)) = ROk (src, b)
  /\ handleMsg known src b
     = ([EDeliver inv (PBytes (firstn (Z.to_nat (size - 4 - zlen (spec_npdu n))) (t :: inv :: svc :: w)))], false).
Proof.
  intros known size ip port f n t inv svc w Hip Hf Hn Hm Ht Hty Hs. unfold udpReceive.
  rewrite (to4_source ip ip) by (split; [assumption|left; reflexivity]). do 2 eexists. split; [reflexivity|].
  apply cut_delivery; assumption.
Qed.
Lemma fitting_reply : forall known size ip port f n t inv svc w, length ip = 4%nat ->
  frame_func f -> npdu_ok n -> n_netmsg n = false -> is_byte t -> t / 16 = 2 \/ t / 16 = 3 ->
  4 + zlen (spec_npdu n) + zlen (t :: inv :: svc :: w) <= size ->
  exists src b, udpReceive size ip port (spec_bvlc f (spec_npdu n ++ t :: inv :: svc :: w)) = ROk (src, b)
  /\ handleMsg known src b = ([EDeliver inv (PBytes (t :: inv :: svc :: w))], false).
Proof.
  intros known size ip port f n t inv svc w Hip Hf Hn Hm Ht Hty Hs. pose proof (spec_npdu_len n).
  assert (7 + zlen (spec_npdu n) <= size) by (unfold zlen in Hs |- *; cbn [length] in Hs; lia).
  destruct (delivered_exact known size ip port f n t inv svc w Hip Hf Hn Hm Ht Hty H0) as (src & b & E1 & E2).
  exists src, b. split; [exact E1|]. rewrite E2. rewrite firstn_all2; [reflexivity|]. unfold zlen in Hs |- *. cbn [length] in *. lia.
Qed.
Lemma full_size_cut : exists o rs, access_ok (o, rs)
  /\ let ack := spec_readmulti_ack 1 [(o, rs)] in
     zlen ack <= 1476
     /\ forall known ip port, length ip = 4%nat -> exists src b got,
        udpReceive 1476 ip port (spec_bvlc 10 (spec_npdu (mkNpdu 1 None None 0 false 0 false 0 0) ++ ack)) = ROk (src, b)
        /\ handleMsg known src b = ([EDeliver 1 (PBytes got)], false)
        /\ got <> ack /\ rpm_hangs got.
Proof.
  assert (Ho : valid_oid (mkOid 8 1)) by (unfold valid_oid; cbn; repeat split; discriminate).
  assert (Hp : in_u32 87) by (split; [discriminate|reflexivity]).
  exists (mkOid 8 1), [mkResult 87 whole (big_values ++ [SVal (VUint 256)])]. split.
  { split; [exact Ho|]. split; [discriminate|]. constructor; [|constructor].
    split; [exact Hp|]. split; [split; [discriminate|reflexivity]|]. cbn [rs_values]. apply Forall_app.
    split; [exact big_supported|]. constructor; [|constructor]. split; [discriminate|reflexivity]. }
  intro ack. change ack with big_ack. clear ack. split; [rewrite big_len; discriminate|].
  intros known ip port Hip.
  assert (E : exists w, big_ack = 48 :: 1 :: 14 :: w) by (eexists; reflexivity). destruct E as [w E].
  destruct (delivered_exact known 1476 ip port 10 (mkNpdu 1 None None 0 false 0 false 0 0) 48 1 14 w Hip) as (src & b & E1 & E2).
  { left; reflexivity. } { unfold npdu_ok, is_byte. cbn. repeat split; try discriminate; auto. } { reflexivity. }
  { split; discriminate || reflexivity. } { right; reflexivity. } { discriminate. }
  rewrite <- E in E1, E2. exists src, b. eexists. split; [exact E1|]. split; [exact E2|].
  change (Z.to_nat (1476 - 4 - zlen (spec_npdu (mkNpdu 1 None None 0 false 0 false 0 0)))) with 1470%nat. rewrite big_cut. split.
  - intro C. assert (L : zlen (cut_ack 1 (mkOid 8 1) 87 big_values) = 1470) by (vm_compute; reflexivity).
    rewrite C, big_len in L. discriminate.
  - apply cut_hangs; [exact Ho|exact Hp|discriminate|exact big_supported].
Qed.
Lemma receive_crash : forall size src port data, udpReceive size src port data = RPanic <-> ~ exists ip, ipv4_source src ip.
Proof.
  intros. rewrite <- to4_nil. unfold udpReceive. destruct (To4 src); split; intro H; try discriminate; reflexivity.
Qed.
Lemma ipv4_taken : forall size src ip port data, ipv4_source src ip -> is_bytes ip -> 0 <= port < 65536 ->
  exists a b, udpReceive size src port data = ROk (a, b) /\ addr_UDPAddr a = Some (ip, port) /\ a_net a = 0 /\ a_adr a = [].
Proof.
  intros size src ip port data H Hb Hp. unfold udpReceive. rewrite (to4_source src ip H). do 2 eexists. split; [reflexivity|].
  split; [|split; reflexivity]. destruct H as [HL _]. destruct ip as [|a [|b [|c [|d [|]]]]]; try discriminate HL.
  unfold UDPToAddress, addr_UDPAddr. cbn [a_mac app]. do 2 f_equal.
  unfold u16, u8. rewrite (Z.mod_small port 65536) by lia.
  rewrite Z.shiftr_div_pow2 by lia. change (2 ^ 8) with 256.
  rewrite (Z.mod_small (port / 256)) by (split; [apply Z.div_pos; lia|apply Z.div_lt_upper_bound; lia]).
  change 255 with (Z.ones 8). rewrite Z.land_ones by lia. change (2 ^ 8) with 256.
  rewrite (Z.mod_small (port mod 256)) by (apply Z.mod_pos_bound; lia).
  pose proof (Z.mod_pos_bound port 256 ltac:(lia)) as HM.
  replace (Z.lor (Z.shiftl (port / 256) 8) (port mod 256)) with (Z.shiftl (port / 256) 8 + port mod 256).
  - rewrite Z.shiftl_mul_pow2 by lia. change (2 ^ 8) with 256. pose proof (Z.div_mod port 256 ltac:(lia)). lia.
  - rewrite <- Z.lxor_lor; [apply Z.add_nocarry_lxor|]; apply Z.bits_inj'; intros k Hk; rewrite Z.land_spec, Z.bits_0;
    (destruct (Z.ltb_spec k 8); [rewrite Z.shiftl_spec_low by lia; reflexivity|]);
    replace (port mod 256) with (Z.land (port mod 256) (Z.ones 8)) by (rewrite Z.land_ones by lia; apply Z.mod_small; exact HM);
    rewrite Z.land_spec, Z.ones_spec_high by lia; rewrite Bool.andb_false_r; apply Bool.andb_false_r.
Qed.
Lemma run_until_error : forall size evs rest, Forall takes evs ->
  ClientRun size (evs ++ SErr :: rest) = (fst (ClientRun size evs), Stopped).
Proof. intros size evs rest H. rewrite run_app by assumption. cbn [ClientRun fst snd]. rewrite app_nil_r. reflexivity. Qed.
Lemma handled_as_apdu : forall known src f n mt w, frame_func f -> network_message n mt -> mt <> 128 -> mt <> 1 -> mt <> 19 ->
  handleMsg known src (spec_bvlc f (spec_npdu n ++ w)) = handleMsg known src (spec_bvlc f (spec_npdu (plain_header n) ++ w)).
Proof.
  intros known src f n mt w Hf (Hn & Hm & Ht) H1 H2 H3. unfold spec_bvlc. apply netmsg_as_apdu; auto using octets_length. subst mt. auto.
Qed.
Lemma no_contents : forall known src f n mt, frame_func f -> network_message n mt -> mt <> 128 -> mt <> 1 -> mt <> 19 ->
  handleMsg known src (spec_bvlc f (spec_npdu n)) = ([], false).
Proof.
  intros known src f n mt Hf (Hn & Hm & Ht) H1 H2 H3. subst mt.
  destruct (recv_raw known src f (octets 2 (zlen (spec_npdu n) + 4)) n [] Hf (octets_length 2 _) Hn) as [p E]; [auto|].
  rewrite app_nil_r in E. unfold spec_bvlc. rewrite E. reflexivity.
Qed.
Lemma routers_request : forall bcast me ip port, a_net bcast = 0 ->
  match me with Some a => a_net a = 0 | None => True end -> addr_UDPAddr bcast = Some (ip, port) ->
  netmsg_frame 0 bcast me = ROk (Some (mkDgram ip port (spec_bvlc 11 [1; 128; 0]))).
Proof. intros. apply netmsg_request; auto. split; discriminate || reflexivity. Qed.
Lemma numbers_request : forall bcast me ip port, a_net bcast = 0 ->
  match me with Some a => a_net a = 0 | None => True end -> addr_UDPAddr bcast = Some (ip, port) ->
  netmsg_frame 18 bcast me = ROk (Some (mkDgram ip port (spec_bvlc 11 [1; 128; 18]))).
Proof. intros. apply netmsg_request; auto. split; discriminate || reflexivity. Qed.
