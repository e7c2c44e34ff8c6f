(** Exact statements about received frames: C35. *)
From Coq Require Import Lia ZifyBool ZifyNat.
From Verif Require Import ModelClient SpecExact SpecWire SpecLayers SpecClient ProofsTaking ProofsWire ProofsBits ProofsLayers ProofsLayerProps ProofsRecv ProofsCall ProofsRoute.
Ltac Zify.zify_post_hook ::= Z.div_mod_to_equations.
Open Scope Z_scope.

Lemma decode_n_inv : forall n d r d', decode_n n d = (r, d') -> derr d' = None ->
  derr d = None /\ exists w, r = Some w /\ length w = n /\ dbuf d = w ++ dbuf d'.
Proof.
  intros n d r d' H He. unfold decode_n in H. destruct (derr d) as [e|] eqn:E; [inversion H; subst; congruence|]. split; [reflexivity|].
  destruct n as [|n]; [inversion H; subst; exists []; auto|].
  destruct (S n <=? length (dbuf d))%nat eqn:El.
  - injection H as <- <-. cbn [dbuf]. exists (firstn (S n) (dbuf d)). split; [reflexivity|]. split; [rewrite firstn_length; lia|]. symmetry. apply firstn_skipn.
  - destruct (dbuf d); inversion H; subst; discriminate He.
Qed.
Lemma decode_u_inv : forall n old d v d', decode_u n old d = (v, d') -> derr d' = None ->
  derr d = None /\ exists w, v = be_val w /\ length w = n /\ dbuf d = w ++ dbuf d'.
Proof.
  intros n old d v d' H He. unfold decode_u in H. destruct (decode_n n d) as [r d1] eqn:E. inversion H. subst.
  destruct (decode_n_inv _ _ _ _ E He) as (H1 & w & -> & Hl & Hb). split; [exact H1|]. exists w. auto.
Qed.
Lemma dec_Address_inv : forall d a d', is_bytes (dbuf d) -> dec_Address d = (a, d') -> derr d' = None ->
  derr d = None /\ exists w, addr_octets true w /\ dbuf d = w ++ dbuf d'.
Proof.
  intros d a d' Hb H He. unfold dec_Address in H. destruct (decode_u 2 0 d) as [net d1] eqn:E1. destruct (decode_u 1 0 d1) as [len d2] eqn:E2.
  destruct (decode_n (Z.to_nat len) d2) as [r d3] eqn:E3. inversion H. subst d3.
  destruct (decode_n_inv _ _ _ _ E3 He) as (N2 & w3 & -> & L3 & B3).
  destruct (decode_u_inv _ _ _ _ _ E2 N2) as (N1 & w2 & V2 & L2 & B2).
  destruct (decode_u_inv _ _ _ _ _ E1 N1) as (N0 & w1 & V1 & L1 & B1).
  split; [exact N0|]. destruct w1 as [|h [|l [|]]]; try discriminate L1. destruct w2 as [|x [|]]; try discriminate L2.
  exists ([h; l] ++ [x] ++ w3). split; [|rewrite B1, B2, B3, <- !app_assoc; reflexivity].
  exists h, l, x, w3. split; [reflexivity|]. rewrite B1, B2 in Hb.
  assert (Hx : is_byte x) by (apply is_bytes_app in Hb; destruct Hb as [_ Hb]; inversion Hb; assumption).
  assert (len = x) by (rewrite V2; unfold be_val; cbn; lia). subst len. unfold zlen, is_byte in *. lia.
Qed.
Lemma is_bytes_tail : forall a b, is_bytes (a ++ b) -> is_bytes b.
Proof. intros a b H. apply is_bytes_app in H. apply H. Qed.
Lemma header_inv : forall w p n nets d, is_bytes w -> dec_NPDU (mkDec w p None) = ((n, nets, None), d) ->
  derr d = None /\ exists hdr, w = hdr ++ dbuf d /\ header_octets hdr.
Proof.
  intros w p n nets d Hb H. unfold dec_NPDU in H.
  destruct (decode_u 1 0 (mkDec w p None)) as [v d1] eqn:E1. destruct (decode_u 1 0 d1) as [m d2] eqn:E2.
  change maskDest with (2 ^ 5) in H. change maskSrc with (2 ^ 3) in H. change maskNetMsg with (2 ^ 7) in H. rewrite !checkMask_bit in H by lia.
  destruct (if Z.testbit m 5 then let '(a, d) := dec_Address d2 in (Some a, d) else (None, d2)) as [dest d3] eqn:E3.
  destruct (if Z.testbit m 3 then let '(a, d) := dec_Address d3 in (Some a, d) else (None, d3)) as [src d4] eqn:E4.
  destruct (if Z.testbit m 5 then decode_u 1 0 d4 else (0, d4)) as [hop d5] eqn:E5.
  assert (K : derr d = None /\ derr d5 = None /\ exists net, netmsg_octets (Z.testbit m 7) net /\ dbuf d5 = net ++ dbuf d).
  { destruct (Z.testbit m 7).
    - destruct (decode_u 1 0 d5) as [mt d6] eqn:E6.
      destruct (if 128 <? mt then decode_u 2 0 d6 else (0, d6)) as [vendor d7] eqn:E7.
      destruct (if mt =? ndpuNetworkIs then let '(n, d) := decode_u 2 0 d7 in (Some (netAddr n), d) else (src, d7)) as [src' d8] eqn:E8.
      assert (K9 : derr d = None /\ derr d8 = None /\ exists w9, length w9 = (if (mt =? 1)%Z then 4 else 0)%nat /\ dbuf d8 = w9 ++ dbuf d).
      { unfold ndpuIamRouterToNetwork in H. destruct (mt =? 1).
        - destruct (decode_u 2 0 d8) as [n1 d9] eqn:E9. destruct (decode_u 2 n1 d9) as [n2 d10] eqn:E10. injection H as _ _ N EE. subst d10.
          destruct (decode_u_inv _ _ _ _ _ E10 N) as (N9 & w10 & _ & L10 & B10). destruct (decode_u_inv _ _ _ _ _ E9 N9) as (N8 & w9 & _ & L9 & B9).
          split; [exact N|]. split; [exact N8|]. exists (w9 ++ w10). rewrite app_length, L9, L10. split; [reflexivity|]. rewrite B9, B10, app_assoc. reflexivity.
        - injection H as _ _ N EE. subst d8. split; [exact N|]. split; [exact N|]. exists []. auto. }
      destruct K9 as (N & N8 & w9 & L9 & B9).
      assert (K8 : derr d7 = None /\ exists w8, length w8 = (if (mt =? 19)%Z then 2 else 0)%nat /\ dbuf d7 = w8 ++ dbuf d8).
      { unfold ndpuNetworkIs in E8. destruct (mt =? 19).
        - destruct (decode_u 2 0 d7) as [n1 d8'] eqn:E. inversion E8. subst. destruct (decode_u_inv _ _ _ _ _ E N8) as (N7 & w8 & _ & L8 & B8). eauto.
        - inversion E8. subst. split; [exact N8|]. exists []. auto. }
      destruct K8 as (N7 & w8 & L8 & B8).
      assert (K7 : derr d6 = None /\ exists w7, length w7 = (if (128 <? mt)%Z then 2 else 0)%nat /\ dbuf d6 = w7 ++ dbuf d7).
      { destruct (128 <? mt).
        - destruct (decode_u_inv _ _ _ _ _ E7 N7) as (N6 & w7 & _ & L7 & B7). eauto.
        - inversion E7. subst. split; [exact N7|]. exists []. auto. }
      destruct K7 as (N6 & w7 & L7 & B7). destruct (decode_u_inv _ _ _ _ _ E6 N6) as (N5 & w6 & V6 & L6 & B6).
      destruct w6 as [|x [|]]; try discriminate L6. assert (mt = x) by (rewrite V6; unfold be_val; cbn; lia). subst x.
      split; [exact N|]. split; [exact N5|]. exists (mt :: w7 ++ w8 ++ w9). split.
      + exists mt, (w7 ++ w8 ++ w9). split; [reflexivity|]. rewrite !app_length. lia.
      + rewrite B6, B7, B8, B9. cbn [app]. rewrite <- !app_assoc. reflexivity.
    - injection H as _ _ N EE. subst d5. split; [exact N|]. split; [exact N|]. exists []. split; reflexivity. }
  destruct K as (N & N5 & net & KN & BN). split; [exact N|].
  assert (K5 : derr d4 = None /\ exists w5, opt_octets (Z.testbit m 5) 1 w5 /\ dbuf d4 = w5 ++ dbuf d5).
  { destruct (Z.testbit m 5).
    - destruct (decode_u_inv _ _ _ _ _ E5 N5) as (N4 & w5 & _ & L5 & B5). eauto.
    - inversion E5. subst. split; [exact N5|]. exists []. split; reflexivity. }
  destruct K5 as (N4 & w5 & L5 & B5).
  assert (N2 : derr d2 = None).
  { assert (N3 : derr d3 = None).
    { destruct (Z.testbit m 3); [|inversion E4; subst; exact N4]. destruct (dec_Address d3) as [a d4'] eqn:EA. inversion E4. subst d4'.
      unfold dec_Address in EA. destruct (decode_u 2 0 d3) as [? x1] eqn:F1. destruct (decode_u 1 0 x1) as [? x2] eqn:F2. destruct (decode_n _ x2) as [? x3] eqn:F3.
      inversion EA. subst x3. destruct (decode_n_inv _ _ _ _ F3 N4) as (M2 & _). destruct (decode_u_inv _ _ _ _ _ F2 M2) as (M1 & _). apply (decode_u_inv _ _ _ _ _ F1 M1). }
    destruct (Z.testbit m 5); [|inversion E3; subst; exact N3]. destruct (dec_Address d2) as [a d3'] eqn:EA. inversion E3. subst d3'.
    unfold dec_Address in EA. destruct (decode_u 2 0 d2) as [? x1] eqn:F1. destruct (decode_u 1 0 x1) as [? x2] eqn:F2. destruct (decode_n _ x2) as [? x3] eqn:F3.
    inversion EA. subst x3. destruct (decode_n_inv _ _ _ _ F3 N3) as (M2 & _). destruct (decode_u_inv _ _ _ _ _ F2 M2) as (M1 & _). apply (decode_u_inv _ _ _ _ _ F1 M1). }
  destruct (decode_u_inv _ _ _ _ _ E2 N2) as (N1 & w2 & V2 & L2 & B2). destruct (decode_u_inv _ _ _ _ _ E1 N1) as (_ & w1 & _ & L1 & B1). cbn [dbuf] in B1.
  destruct w1 as [|x1 [|]]; try discriminate L1. destruct w2 as [|x2 [|]]; try discriminate L2.
  assert (m = x2) by (rewrite V2; unfold be_val; cbn; lia). subst x2. rewrite B2 in B1. cbn [app] in B1.
  assert (Hb2 : is_bytes (dbuf d2)) by (subst w; inversion Hb as [|? ? _ T]; inversion T; assumption).
  assert (K3 : exists w3, addr_octets (Z.testbit m 5) w3 /\ dbuf d2 = w3 ++ dbuf d3 /\ is_bytes (dbuf d3)
    /\ exists w4, addr_octets (Z.testbit m 3) w4 /\ dbuf d3 = w4 ++ dbuf d4).
  { assert (K4 : forall (Hb3 : is_bytes (dbuf d3)), derr d3 = None /\ exists w4, addr_octets (Z.testbit m 3) w4 /\ dbuf d3 = w4 ++ dbuf d4).
    { intro Hb3. destruct (Z.testbit m 3).
      - destruct (dec_Address d3) as [a d4'] eqn:EA. inversion E4. subst. apply (dec_Address_inv _ _ _ Hb3 EA N4).
      - inversion E4. subst. split; [exact N4|]. exists []. split; reflexivity. }
    destruct (Z.testbit m 5).
    - destruct (dec_Address d2) as [a d3'] eqn:EA. inversion E3. subst d3'.
      assert (Hb3 : is_bytes (dbuf d3)).
      { unfold dec_Address in EA. destruct (decode_u 2 0 d2) as [? y1] eqn:F1. destruct (decode_u 1 0 y1) as [? y2] eqn:F2. destruct (decode_n _ y2) as [? y3] eqn:F3.
        inversion EA. subst y3.
        assert (DB : forall k d r d', decode_n k d = (r, d') -> is_bytes (dbuf d) -> is_bytes (dbuf d')).
        { clear. intros k d r d' H Hb. unfold decode_n in H. destruct (derr d); [inversion H; subst; exact Hb|]. destruct k; [inversion H; subst; exact Hb|].
          destruct (_ <=? _)%nat; [inversion H; cbn [dbuf]; rewrite <- (firstn_skipn (S k) (dbuf d)) in Hb; apply is_bytes_app in Hb; apply Hb|].
          destruct (dbuf d); inversion H; constructor. }
        unfold decode_u in F1, F2. destruct (decode_n 2 d2) as [? z1] eqn:G1. destruct (decode_n 1 y1) as [? z2] eqn:G2. inversion F1. inversion F2. subst.
        eauto. }
      destruct (K4 Hb3) as (N3 & w4 & A4 & B4). destruct (dec_Address_inv _ _ _ Hb2 EA N3) as (_ & w3 & A3 & B3). exists w3. eauto 6.
    - inversion E3. subst. destruct (K4 Hb2) as (N3 & w4 & A4 & B4). exists []. split; [reflexivity|]. eauto 6. }
  destruct K3 as (w3 & A3 & B3 & _ & w4 & A4 & B4).
  exists (x1 :: m :: w3 ++ w4 ++ w5 ++ net). split.
  - rewrite B1, B3, B4, B5, BN. cbn [app]. rewrite <- !app_assoc. reflexivity.
  - exists x1, m, w3, w4, w5, net. auto.
Qed.
Lemma decode_opt : forall n w rest p old, length w = n -> exists v p', decode_u n old (mkDec (w ++ rest) p None) = (v, mkDec rest p' None).
Proof.
  intros n w rest p old H. subst n. unfold decode_u. rewrite decode_n_ok0. eauto.
Qed.
Lemma dec_Address_ok : forall w rest p, addr_octets true w -> exists a p', dec_Address (mkDec (w ++ rest) p None) = (a, mkDec rest p' None).
Proof.
  intros w rest p (h & l & len & adr & -> & Hl). unfold dec_Address. cbn [app].
  destruct (decode_opt 2 [h; l] (len :: adr ++ rest) p 0 eq_refl) as (v & p1 & E). cbn [app] in E. rewrite E. rewrite decode_u1_ok.
  replace (Z.to_nat len) with (length adr) by (unfold zlen in Hl; lia). rewrite decode_n_ok0. eauto.
Qed.
Lemma header_ok : forall hdr apdu p, header_octets hdr -> exists n nets p', dec_NPDU (mkDec (hdr ++ apdu) p None) = ((n, nets, None), mkDec apdu p' None).
Proof.
  intros hdr apdu p (v & m & dest & src & hop & net & -> & Hd & Hs & Hh & Hn). unfold dec_NPDU. cbn [app]. rewrite !decode_u1_ok.
  change maskDest with (2 ^ 5). change maskSrc with (2 ^ 3). change maskNetMsg with (2 ^ 7). rewrite !checkMask_bit by lia.
  rewrite <- !app_assoc.
  assert (E1 : exists a p1, (if Z.testbit m 5 then let '(a, d) := dec_Address (mkDec (dest ++ src ++ hop ++ net ++ apdu) (Some m) None) in (Some a, d)
     else (None, mkDec (dest ++ src ++ hop ++ net ++ apdu) (Some m) None)) = (a, mkDec (src ++ hop ++ net ++ apdu) p1 None)).
  { destruct (Z.testbit m 5); [|cbn in Hd; subst; eauto]. destruct (dec_Address_ok dest (src ++ hop ++ net ++ apdu) (Some m) Hd) as (a & p1 & E). rewrite E. eauto. }
  destruct E1 as (a & p1 & E1). rewrite E1.
  assert (E2 : exists a p2, (if Z.testbit m 3 then let '(a, d) := dec_Address (mkDec (src ++ hop ++ net ++ apdu) p1 None) in (Some a, d)
     else (None, mkDec (src ++ hop ++ net ++ apdu) p1 None)) = (a, mkDec (hop ++ net ++ apdu) p2 None)).
  { destruct (Z.testbit m 3); [|cbn in Hs; subst; eauto]. destruct (dec_Address_ok src (hop ++ net ++ apdu) p1 Hs) as (x & p2 & E). rewrite E. eauto. }
  destruct E2 as (a2 & p2 & E2). rewrite E2.
  assert (E3 : exists h p3, (if Z.testbit m 5 then decode_u 1 0 (mkDec (hop ++ net ++ apdu) p2 None) else (0, mkDec (hop ++ net ++ apdu) p2 None)) = (h, mkDec (net ++ apdu) p3 None)).
  { destruct (Z.testbit m 5); [|cbn in Hh; subst; eauto]. apply decode_opt. exact Hh. }
  destruct E3 as (h & p3 & E3). rewrite E3.
  destruct (Z.testbit m 7).
  - destruct Hn as (mt & r & -> & Hl). cbn [app]. rewrite decode_u1_ok.
    set (k1 := if 128 <? mt then 2%nat else 0%nat) in Hl. set (k2 := if mt =? 19 then 2%nat else 0%nat) in Hl. set (k3 := if mt =? 1 then 4%nat else 0%nat) in Hl.
    rewrite <- (firstn_skipn k1 r). rewrite <- (firstn_skipn k2 (skipn k1 r)).
    assert (L1 : length (firstn k1 r) = k1) by (rewrite firstn_length; lia).
    assert (L2 : length (firstn k2 (skipn k1 r)) = k2) by (rewrite firstn_length, skipn_length; lia).
    assert (L3 : length (skipn k2 (skipn k1 r)) = k3) by (rewrite !skipn_length; lia).
    set (r1 := firstn k1 r) in *. set (r2 := firstn k2 (skipn k1 r)) in *. set (r3 := skipn k2 (skipn k1 r)) in *. clearbody r1 r2 r3. rewrite <- !app_assoc.
    assert (F1 : exists h p4, (if 128 <? mt then decode_u 2 0 (mkDec (r1 ++ r2 ++ r3 ++ apdu) (Some mt) None) else (0, mkDec (r1 ++ r2 ++ r3 ++ apdu) (Some mt) None))
       = (h, mkDec (r2 ++ r3 ++ apdu) p4 None)).
    { unfold k1 in L1. destruct (128 <? mt); [apply decode_opt; exact L1|]. destruct r1; [|discriminate]. cbn [app]. eauto. }
    destruct F1 as (h4 & p4 & F1). rewrite F1. unfold ndpuNetworkIs, ndpuIamRouterToNetwork.
    assert (F2 : exists h p5, (if mt =? 19 then let '(n, d) := decode_u 2 0 (mkDec (r2 ++ r3 ++ apdu) p4 None) in (Some (netAddr n), d) else (a2, mkDec (r2 ++ r3 ++ apdu) p4 None))
       = (h, mkDec (r3 ++ apdu) p5 None)).
    { unfold k2 in L2. destruct (mt =? 19).
      - destruct (decode_opt 2 r2 (r3 ++ apdu) p4 0 L2) as (x & p5 & E). rewrite E. eauto.
      - destruct r2; [|discriminate]. cbn [app]. eauto. }
    destruct F2 as (h5 & p5 & F2). rewrite F2. unfold k3 in L3. destruct (mt =? 1).
    + destruct r3 as [|b1 [|b2 [|b3 [|b4 [|]]]]]; try discriminate L3. cbn [app].
      destruct (decode_opt 2 [b1; b2] (b3 :: b4 :: apdu) p5 0 eq_refl) as (x & p6 & E). cbn [app] in E. rewrite E.
      destruct (decode_opt 2 [b3; b4] apdu p6 x eq_refl) as (y & p7 & E'). cbn [app] in E'. rewrite E'. cbn [derr]. eauto.
    + destruct r3; [|discriminate]. cbn [app derr]. eauto.
  - cbn in Hn. subst net. cbn [app derr]. eauto.
Qed.
Lemma dec_apdu_fresh : forall w p, dec_APDU (mkDec w p None) = dec_APDU (newDecoder w).
Proof. intros w p. destruct w; reflexivity. Qed.
Lemma u_short : forall n old p, decode_u (S n) old (mkDec [] p None) = (old, mkDec [] None (Some EEOF)).
Proof. reflexivity. Qed.
Lemma u_err : forall n old b p e, decode_u n old (mkDec b p (Some e)) = (old, mkDec b p (Some e)).
Proof. reflexivity. Qed.
Lemma conf_exact : forall t r p, is_byte t -> t / 16 = 0 ->
  match dec_APDU (mkDec (t :: r) p None) with
  | ((a, None), _) => p_type a = 0 /\ exists sz inv w, r = sz :: inv :: w /\ p_invoke a = inv /\ (if Z.testbit t 3 then 3 <= zlen w else 1 <= zlen w)
  | ((a, Some _), _) => ~ exists sz inv w, r = sz :: inv :: w /\ (if Z.testbit t 3 then 3 <= zlen w else 1 <= zlen w)
  end.
Proof.
  intros t r p Ht Hty. unfold dec_APDU. rewrite decode_u1_ok, (land240 t Ht), Hty.
  cbn [Z.mul Z.eqb pduComplexAck pduSimpleAck orb pduUnconfirmed pduConfirmed].
  change apduMaskSegmented with (2 ^ 3). rewrite checkMask_bit by lia.
  destruct r as [|sz r].
  { rewrite u_short, !u_err. destruct (Z.testbit t 3); rewrite ?u_err; cbn; intros (? & ? & ? & H & _); discriminate. }
  rewrite decode_u1_ok. destruct r as [|inv r].
  { rewrite u_short. destruct (Z.testbit t 3); rewrite ?u_err; cbn; intros (? & ? & ? & H & _); discriminate. }
  rewrite decode_u1_ok. destruct (Z.testbit t 3).
  - destruct r as [|x1 [|x2 [|x3 r]]].
    + cbn. intros (? & ? & ? & H & K). inversion H. subst. cbn in K. lia.
    + cbn. intros (? & ? & ? & H & K). inversion H. subst. cbn in K. lia.
    + cbn. intros (? & ? & ? & H & K). inversion H. subst. cbn in K. lia.
    + rewrite !decode_u1_ok. cbn [dbuf]. destruct r as [|y r].
      * cbn [length Nat.ltb Nat.leb derr p_type p_invoke]. split; [reflexivity|]. do 3 eexists. split; [reflexivity|]. split; [reflexivity|]. unfold zlen. cbn [length]. lia.
      * replace (0 <? length (y :: r))%nat with true by reflexivity. rewrite decode_all.
        cbn [derr p_type p_invoke]. split; [reflexivity|]. do 3 eexists. split; [reflexivity|]. split; [reflexivity|]. unfold zlen. cbn [length]. lia.
  - destruct r as [|x3 r].
    + cbn. intros (? & ? & ? & H & K). inversion H. subst. cbn in K. lia.
    + rewrite !decode_u1_ok. cbn [dbuf]. destruct r as [|y r].
      * cbn [length Nat.ltb Nat.leb derr p_type p_invoke]. split; [reflexivity|]. do 3 eexists. split; [reflexivity|]. split; [reflexivity|]. unfold zlen. cbn [length]. lia.
      * replace (0 <? length (y :: r))%nat with true by reflexivity. rewrite decode_all.
        cbn [derr p_type p_invoke]. split; [reflexivity|]. do 3 eexists. split; [reflexivity|]. split; [reflexivity|]. unfold zlen. cbn [length]. lia.
Qed.
Lemma crash_none : forall n bs, crash_within n bs -> all_taken n bs = None.
Proof.
  induction n as [|n IH]; intros bs H; [contradiction|]. cbn [crash_within all_taken] in *. destruct (take_value bs); [reflexivity|contradiction|]. rewrite (IH _ H). reflexivity.
Qed.
Lemma crash_no_iam : forall w, match take_value w with Crash => True | Taken false _ _ r => crash_within 3 r | _ => False end -> iam_octets w = None.
Proof.
  intros w H. unfold iam_octets. destruct (take_value w) as [| |[] num c r]; try reflexivity. rewrite (crash_none _ _ H). reflexivity.
Qed.
Lemma apdu_exact : forall known src n x p, is_bytes x ->
  let '((_, pan), early) := handle_apdu known src n (mkDec x p None) in
  (pan = true <-> iam_crash x) /\ (pan || early = false <-> handled known x).
Proof.
  intros known src n x p Hx. unfold handle_apdu. cbn [dbuf].
  destruct x as [|t r].
  { destruct (dec_apdu_empty p) as (a & d & E). rewrite E. split; split; try discriminate; try contradiction. intros (? & ? & H & _). discriminate H. }
  assert (Ht : is_byte t) by (inversion Hx; assumption).
  assert (Hr : 0 <= t / 16 < 16) by (unfold is_byte in Ht; lia).
  assert (NI : t / 16 <> 1 -> ~ iam_crash (t :: r)).
  { intros H (t' & raw & E & K & _). inversion E. subst. contradiction. }
  destruct (Z.eq_dec (t / 16) 1) as [T1|T1].
  { unfold dec_APDU. rewrite decode_u1_ok, (land240 t Ht), T1.
    cbn [Z.mul Z.eqb Pos.mul Pos.eqb pduComplexAck pduSimpleAck orb pduUnconfirmed pduConfirmed].
    rewrite u1_known. destruct r as [|s w].
    { cbn. split; split; try discriminate.
      - intros (? & ? & E & _). discriminate E.
      - intros [(_ & ? & ? & E & _)|[(H & _)|[(H & _)|(H & _)]]]; [discriminate E|lia|lia|lia]. }
    cbn [dbuf]. rewrite decode_all. cbn [derr p_type p_uservice p_raw Z.eqb Pos.eqb pduUnconfirmed]. unfold usvcIAm.
    destruct (s =? 0) eqn:E2.
    - assert (s = 0) by lia. subst s.
      assert (Hw : is_bytes w) by (inversion Hx as [|? ? _ Hx']; inversion Hx'; assumption).
      assert (HC : iam_crash (t :: 0 :: w) <-> match take_value w with Crash => True | Taken false _ _ r => crash_within 3 r | _ => False end).
      { split.
        - intros (t' & raw & E & _ & K). inversion E. subst. exact K.
        - intro K. exists t, w. auto. }
      assert (HH : handled known (t :: 0 :: w) <-> iam_octets w <> None).
      { cbn [handled]. split.
        - intros [(_ & svc & raw & E & K)|[(H & _)|[(H & _)|(H & _)]]]; try lia. inversion E. subst. apply K. reflexivity.
        - intro K. left. split; [exact T1|]. exists 0, w. split; [reflexivity|]. intros _. exact K. }
      destruct (iam_taken w Hw) as [(C & E)|(NC & E)].
      + rewrite E, HC, HH. split; split; try discriminate; auto. intro K. contradiction K. exact (crash_no_iam w C).
      + destruct (iam_octets w) as [[[[o m] s] v]|].
        * destruct E as (d & ->). cbn [orb]. rewrite HC, HH. split; split; try discriminate; try contradiction; auto.
        * destruct E as (i & e & d & ->). cbn [orb]. rewrite HC, HH. split; split; try discriminate; try contradiction; intro K; contradiction K; reflexivity.
    - split; split; try discriminate; try reflexivity.
      + intros (? & ? & E & _). inversion E. subst. discriminate E2.
      + intros _. left. split; [exact T1|]. exists s, w. split; [reflexivity|]. intro. subst. discriminate E2. }
  specialize (NI T1).
  destruct (Z.eq_dec (t / 16) 0) as [T0|T0].
  { pose proof (conf_exact t r p Ht T0) as CE. destruct (dec_APDU (mkDec (t :: r) p None)) as [[a [e|]] d].
    - split; split; try discriminate; try contradiction. cbn [handled].
      intros [(H & _)|[(H & _)|[(_ & sz & inv & w & -> & _ & K)|(H & _)]]]; try lia. exfalso. apply CE. eauto.
    - destruct CE as (ET & sz & inv & w & -> & EI & K). rewrite ET. cbn [Z.eqb pduUnconfirmed pduSimpleAck pduComplexAck pduConfirmed orb]. rewrite EI.
      split; split; try discriminate; try contradiction.
      + cbn [orb]. intro H. cbn [handled]. right. right. left. split; [exact T0|]. exists sz, inv, w. split; [reflexivity|]. split; [destruct (known inv); [reflexivity|discriminate]|exact K].
      + cbn [handled orb]. intros [(H & _)|[(H & _)|[(_ & sz' & inv' & w' & E & H & _)|(H & _)]]]; try lia. inversion E. subst. rewrite H. reflexivity. }
  destruct (Z.eq_dec (t / 16) 5) as [T5|T5].
  { assert (HH : handled known (t :: r) <-> error_octets r <> None).
    { cbn [handled]. split; [|auto]. intros [(H & _)|[(H & _)|[(H & _)|(_ & H)]]]; try lia. exact H. }
    assert (Hr' : is_bytes r) by (inversion Hx; assumption).
    pose proof (error_taken t r p Ht T5 Hr') as ET. destruct (error_octets r) as [[c k]|].
    - destruct ET as (a & d & E & _ & _). rewrite E. destruct (dec_apdu_type t r p Ht a None d E) as [Ety _]. rewrite Ety, T5. change (5 * 16) with 80.
      cbn [Z.mul Z.eqb Pos.mul Pos.eqb pduUnconfirmed pduSimpleAck pduComplexAck pduConfirmed pduError orb]. rewrite HH. split; split; try discriminate; try contradiction; reflexivity.
    - destruct ET as (a & e & d & ->). cbn [orb]. rewrite HH. split; split; try discriminate; try contradiction; intro K; contradiction K; reflexivity. }
  destruct (Z_lt_dec (t / 16) 4) as [T4|T4].
  { assert (T : t / 16 = 2 \/ t / 16 = 3) by lia.
    assert (HH : handled known (t :: r) <-> exists inv svc w, r = inv :: svc :: w /\ known inv = true).
    { cbn [handled]. split; [|auto]. intros [(H & _)|[(_ & H)|[(H & _)|(H & _)]]]; try lia. exact H. }
    destruct (dec_APDU (mkDec (t :: r) p None)) as [[a [e|]] d] eqn:E.
    - rewrite HH. split; split; try discriminate; try contradiction. intros (inv & svc & w & -> & _). exfalso.
      unfold dec_APDU in E. rewrite decode_u1_ok, (land240 t Ht) in E.
      replace ((t / 16 * 16 =? pduComplexAck) || (t / 16 * 16 =? pduSimpleAck)) with true in E by (unfold pduComplexAck, pduSimpleAck; lia).
      rewrite !decode_u1_ok in E. discriminate E.
    - destruct (dec_apdu_ack t r p a d Ht T E) as (inv & svc & w & -> & EI).
      destruct (dec_apdu_type t _ p Ht a None d E) as [Ety _]. rewrite Ety.
      replace (t / 16 * 16 =? pduUnconfirmed) with false by (unfold pduUnconfirmed; lia).
      replace (_ || _ || _) with true by (unfold pduSimpleAck, pduComplexAck, pduConfirmed; lia). rewrite EI. cbn [orb]. rewrite HH.
      split; split; try discriminate; try contradiction.
      + intro H. exists inv, svc, w. split; [reflexivity|]. destruct (known inv); [reflexivity|discriminate].
      + intros (i' & s' & w' & E' & H). inversion E'. subst. rewrite H. reflexivity. }
  assert (HH : ~ handled known (t :: r)).
  { cbn [handled]. intros [(H & _)|[(H & _)|[(H & _)|(H & _)]]]; lia. }
  unfold dec_APDU. rewrite decode_u1_ok, (land240 t Ht).
  replace ((t / 16 * 16 =? pduComplexAck) || (t / 16 * 16 =? pduSimpleAck)) with false by (unfold pduComplexAck, pduSimpleAck; lia).
  replace (t / 16 * 16 =? pduUnconfirmed) with false by (unfold pduUnconfirmed; lia).
  replace (t / 16 * 16 =? pduConfirmed) with false by (unfold pduConfirmed; lia).
  replace (t / 16 * 16 =? pduError) with false by (unfold pduError; lia).
  destruct (_ =? pduSegmentAck); [|destruct (_ =? pduReject); [|destruct (_ =? pduAbort)]]; split; split; try discriminate; contradiction.
Qed.
(** C35 *)
Lemma crash_exact : forall known src b, is_bytes b ->
  (snd (handleMsg known src b) = true <->
   exists f apdu, carries b f apdu /\ (iam_crash apdu \/ (f = 4 /\ zlen b < 14 /\ handled known apdu))).
Proof.
  intros known src b Hb. unfold handleMsg. destruct (dec_BVLC (newDecoder b)) as [h d] eqn:EB.
  assert (HNIL : (forall f apdu, ~ carries b f apdu) -> (snd (@nil effect, false) = true <->
     exists f apdu, carries b f apdu /\ (iam_crash apdu \/ (f = 4 /\ zlen b < 14 /\ handled known apdu)))).
  { intro H. split; [discriminate|]. intros (f & apdu & K & _). exfalso. exact (H _ _ K). }
  destruct (derr d) eqn:Ed.
  { apply HNIL. intros f apdu (t & l1 & l2 & hdr & -> & _). unfold dec_BVLC, newDecoder in EB. rewrite !decode_u1_ok in EB.
    change (l1 :: l2 :: hdr ++ apdu) with ([l1; l2] ++ hdr ++ apdu) in EB. rewrite decode_u_ok in EB by (auto; discriminate). cbn [decode_n derr] in EB. inversion EB. subst. discriminate Ed. }
  destruct (bvlc_front b h d EB Ed) as (t & f & l1 & l2 & r & q & -> & -> & Ef). rewrite Ef. cbn [skipn].
  assert (Hr : is_bytes r) by (do 4 (inversion Hb as [|? ? _ Hb']; subst; clear Hb; rename Hb' into Hb); exact Hb).
  unfold bfBroadcast, bfUnicast, bfForwarded. destruct ((f =? 11) || (f =? 10) || (f =? 4)) eqn:EF.
  2:{ apply HNIL. intros f' apdu (t' & l1' & l2' & hdr & E & _ & K). inversion E. subst. lia. }
  destruct (dec_NPDU (mkDec r q None)) as [[[n nets] [e|]] d2] eqn:EN.
  { apply HNIL. intros f' apdu (t' & l1' & l2' & hdr & E & K & _). inversion E. subst.
    destruct (header_ok hdr apdu q K) as (n' & nets' & p' & E'). rewrite E' in EN. discriminate EN. }
  destruct (header_inv r q n nets d2 Hr EN) as (N2 & hdr & Eh & HO).
  assert (HU : forall f' apdu, carries (t :: f :: l1 :: l2 :: r) f' apdu -> f' = f /\ apdu = dbuf d2).
  { intros f' apdu (t' & l1' & l2' & hdr' & E & K & _). inversion E. subst f'. split; [reflexivity|].
    match goal with H : r = hdr' ++ apdu |- _ => rewrite H in EN end.
    destruct (header_ok hdr' apdu q K) as (n' & nets' & p' & E'). rewrite E' in EN. inversion EN. reflexivity. }
  assert (HC : carries (t :: f :: l1 :: l2 :: r) f (dbuf d2)).
  { exists t, l1, l2, hdr. split; [rewrite Eh at 1; reflexivity|]. split; [exact HO|]. lia. }
  assert (Hx : is_bytes (dbuf d2)) by (rewrite Eh in Hr; apply is_bytes_app in Hr; apply Hr).
  destruct d2 as [x p2 e2]. cbn [dbuf derr] in *. subst e2.
  pose proof (apdu_exact known src n x p2 Hx) as AE. destruct (handle_apdu known src n (mkDec x p2 None)) as [[eff pan] early]. destruct AE as [A1 A2].
  assert (EZ : zlen (t :: f :: l1 :: l2 :: r) = 4 + zlen r) by (unfold zlen; cbn [length]; lia).
  transitivity (iam_crash x \/ (f = 4 /\ zlen (t :: f :: l1 :: l2 :: r) < 14 /\ handled known x)).
  - rewrite <- A1, <- A2, EZ. destruct pan, early; cbn [orb snd]; split; try tauto; try discriminate.
    + intros [H|(_ & _ & H)]; discriminate.
    + intro H. right. lia.
    + intros [H|(H1 & H2 & _)]; [discriminate|lia].
  - split.
    + intro H. exists f, x. auto.
    + intros (f' & apdu & K & H). destruct (HU _ _ K) as [-> ->]. exact H.
Qed.
(** C36 *)
Lemma apdu_hands : forall known src n x p id pl, is_bytes x ->
  (In (EDeliver id pl) (fst (fst (handle_apdu known src n (mkDec x p None)))) <-> hands_over x id pl).
Proof.
  intros known src n x p id pl Hx. unfold handle_apdu. cbn [dbuf].
  destruct x as [|t r].
  { destruct (dec_apdu_empty p) as (a & d & E). rewrite E. reflexivity. }
  assert (Ht : is_byte t) by (inversion Hx; assumption).
  assert (Hr : 0 <= t / 16 < 16) by (unfold is_byte in Ht; lia). cbn [hands_over].
  destruct (Z.eq_dec (t / 16) 1) as [T1|T1].
  { transitivity False; [|split; [contradiction|intros [(H & _)|[(H & _)|(H & _)]]; lia]]. split; [|contradiction].
    destruct (dec_APDU (mkDec (t :: r) p None)) as [[a [e|]] d] eqn:E; [contradiction|].
    destruct (dec_apdu_type t r p Ht a None d E) as [Ety _]. rewrite Ety, T1. cbn [Z.mul Z.eqb Pos.mul Pos.eqb pduUnconfirmed].
    destruct (_ =? usvcIAm); [|contradiction]. destruct (dec_IAm _) as [[i [e|]] d'| |]; cbn [fst In]; try tauto. intros [H|[]]. discriminate H. }
  destruct (Z.eq_dec (t / 16) 0) as [T0|T0].
  { pose proof (conf_exact t r p Ht T0) as CE. destruct (dec_APDU (mkDec (t :: r) p None)) as [[a [e|]] d].
    - split; [contradiction|]. intros [(H & _)|[(_ & _ & sz & w & -> & K)|(H & _)]]; try lia. exfalso. apply CE. eauto.
    - destruct CE as (ET & sz & inv & w & -> & EI & K). rewrite ET. cbn [Z.eqb pduUnconfirmed pduSimpleAck pduComplexAck pduConfirmed orb]. rewrite EI. cbn [fst In].
      split.
      + intros [H|[]]. inversion H. subst. right. left. split; [exact T0|]. split; [reflexivity|]. eauto.
      + intros [(H & _)|[(_ & -> & sz' & w' & E & _)|(H & _)]]; try lia. inversion E. left. reflexivity. }
  destruct (Z.eq_dec (t / 16) 5) as [T5|T5].
  { assert (Hr' : is_bytes r) by (inversion Hx; assumption).
    pose proof (error_taken t r p Ht T5 Hr') as ET. destruct (error_octets r) as [[c k]|].
    - destruct ET as (a & d & E & Hc & Hk). rewrite E. destruct (dec_apdu_type t r p Ht a None d E) as [Ety _]. rewrite Ety, T5. change (5 * 16) with 80.
      cbn [Z.eqb Pos.eqb pduUnconfirmed pduSimpleAck pduComplexAck pduConfirmed pduError orb fst In]. rewrite (dec_apdu_err t r p a None d Ht T5 E), Hc, Hk. split.
      + intros [H|[]]. inversion H. subst. right. right. split; [reflexivity|]. eauto.
      + intros [(H & _)|[(H & _)|(_ & c' & k' & H & -> & ->)]]; try lia. inversion H. left. reflexivity.
    - destruct ET as (a & e & d & ->). split; [contradiction|]. intros [(H & _)|[(H & _)|(_ & c' & k' & H & _)]]; try lia. discriminate H. }
  destruct (Z_lt_dec (t / 16) 4) as [T4|T4].
  { assert (T : t / 16 = 2 \/ t / 16 = 3) by lia.
    destruct (dec_APDU (mkDec (t :: r) p None)) as [[a [e|]] d] eqn:E.
    - split; [contradiction|]. intros [(_ & _ & svc & w & ->)|[(H & _)|(H & _)]]; try lia. exfalso.
      unfold dec_APDU in E. rewrite decode_u1_ok, (land240 t Ht) in E.
      replace ((t / 16 * 16 =? pduComplexAck) || (t / 16 * 16 =? pduSimpleAck)) with true in E by (unfold pduComplexAck, pduSimpleAck; lia).
      rewrite !decode_u1_ok in E. discriminate E.
    - destruct (dec_apdu_ack t r p a d Ht T E) as (inv & svc & w & -> & EI).
      destruct (dec_apdu_type t _ p Ht a None d E) as [Ety _]. rewrite Ety.
      replace (t / 16 * 16 =? pduUnconfirmed) with false by (unfold pduUnconfirmed; lia).
      replace (_ || _ || _) with true by (unfold pduSimpleAck, pduComplexAck, pduConfirmed; lia). rewrite EI. cbn [fst In].
      split.
      + intros [H|[]]. inversion H. subst. left. split; [exact T|]. split; [reflexivity|]. eauto.
      + intros [(_ & -> & svc' & w' & E')|[(H & _)|(H & _)]]; try lia. inversion E'. left. reflexivity. }
  transitivity False; [|split; [contradiction|intros [(H & _)|[(H & _)|(H & _)]]; lia]]. split; [|contradiction].
  unfold dec_APDU. rewrite decode_u1_ok, (land240 t Ht).
  replace ((t / 16 * 16 =? pduComplexAck) || (t / 16 * 16 =? pduSimpleAck)) with false by (unfold pduComplexAck, pduSimpleAck; lia).
  replace (t / 16 * 16 =? pduUnconfirmed) with false by (unfold pduUnconfirmed; lia).
  replace (t / 16 * 16 =? pduConfirmed) with false by (unfold pduConfirmed; lia).
  replace (t / 16 * 16 =? pduError) with false by (unfold pduError; lia).
  destruct (_ =? pduSegmentAck); [|destruct (_ =? pduReject); [|destruct (_ =? pduAbort)]]; cbn [fst In]; tauto.
Qed.
Lemma deliveries_exact : forall known src b id pl, is_bytes b ->
  (In (EDeliver id pl) (fst (handleMsg known src b)) <-> exists f apdu, carries b f apdu /\ hands_over apdu id pl).
Proof.
  intros known src b id pl Hb. unfold handleMsg. destruct (dec_BVLC (newDecoder b)) as [h d] eqn:EB.
  assert (HNIL : (forall f apdu, ~ carries b f apdu) -> (In (EDeliver id pl) (fst (@nil effect, false)) <->
     exists f apdu, carries b f apdu /\ hands_over apdu id pl)).
  { intro H. split; [contradiction|]. intros (f & apdu & K & _). exfalso. exact (H _ _ K). }
  destruct (derr d) eqn:Ed.
  { apply HNIL. intros f apdu (t & l1 & l2 & hdr & -> & _). unfold dec_BVLC, newDecoder in EB. rewrite !decode_u1_ok in EB.
    change (l1 :: l2 :: hdr ++ apdu) with ([l1; l2] ++ hdr ++ apdu) in EB. rewrite decode_u_ok in EB by (auto; discriminate). cbn [decode_n derr] in EB. inversion EB. subst. discriminate Ed. }
  destruct (bvlc_front b h d EB Ed) as (t & f & l1 & l2 & r & q & -> & -> & Ef). rewrite Ef. cbn [skipn].
  assert (Hr : is_bytes r) by (do 4 (inversion Hb as [|? ? _ Hb']; subst; clear Hb; rename Hb' into Hb); exact Hb).
  unfold bfBroadcast, bfUnicast, bfForwarded. destruct ((f =? 11) || (f =? 10) || (f =? 4)) eqn:EF.
  2:{ apply HNIL. intros f' apdu (t' & l1' & l2' & hdr & E & _ & K). inversion E. subst. lia. }
  destruct (dec_NPDU (mkDec r q None)) as [[[n nets] [e|]] d2] eqn:EN.
  { apply HNIL. intros f' apdu (t' & l1' & l2' & hdr & E & K & _). inversion E. subst.
    destruct (header_ok hdr apdu q K) as (n' & nets' & p' & E'). rewrite E' in EN. discriminate EN. }
  destruct (header_inv r q n nets d2 Hr EN) as (N2 & hdr & Eh & HO).
  assert (HU : forall f' apdu, carries (t :: f :: l1 :: l2 :: r) f' apdu -> f' = f /\ apdu = dbuf d2).
  { intros f' apdu (t' & l1' & l2' & hdr' & E & K & _). inversion E. subst f'. split; [reflexivity|].
    match goal with H : r = hdr' ++ apdu |- _ => rewrite H in EN end.
    destruct (header_ok hdr' apdu q K) as (n' & nets' & p' & E'). rewrite E' in EN. inversion EN. reflexivity. }
  assert (HC : carries (t :: f :: l1 :: l2 :: r) f (dbuf d2)).
  { exists t, l1, l2, hdr. split; [rewrite Eh at 1; reflexivity|]. split; [exact HO|]. lia. }
  assert (Hx : is_bytes (dbuf d2)) by (rewrite Eh in Hr; apply is_bytes_app in Hr; apply Hr).
  destruct d2 as [x p2 e2]. cbn [dbuf derr] in *. subst e2.
  pose proof (apdu_hands known src n x p2 id pl Hx) as AE. destruct (handle_apdu known src n (mkDec x p2 None)) as [[eff pan] early]. cbn [fst] in AE.
  transitivity (In (EDeliver id pl) eff).
  - assert (NP : forall l : list effect, Forall pub_net l -> ~ In (EDeliver id pl) l) by (intros l H K; rewrite Forall_forall in H; exact (H _ K)).
    match goal with |- In _ (fst (if _ then (?pubs ++ _, _) else _)) <-> _ => assert (HP : Forall pub_net pubs) end.
    { destruct (n_netmsg n); [|constructor]. apply Forall_app. split; match goal with |- Forall _ (if ?c then _ else _) => destruct c end; repeat constructor. }
    destruct (pan || early); cbn [fst]; rewrite in_app_iff; specialize (NP _ HP); tauto.
  - rewrite AE. split.
    + intro H. exists f, x. auto.
    + intros (f' & apdu & K & H). destruct (HU _ _ K) as [_ ->]. exact H.
Qed.
Lemma apdu_published : forall known src n x p id m s v, is_bytes x ->
  ((exists k a, In (EPubIAm k (mkIam id m s v a)) (fst (fst (handle_apdu known src n (mkDec x p None))))) <-> announces x id m s v).
Proof.
  intros known src n x p id m s v Hx. unfold handle_apdu. cbn [dbuf].
  destruct x as [|t r].
  { destruct (dec_apdu_empty p) as (a & d & E). rewrite E. split; [intros (? & ? & [])|intros (? & ? & H & _); discriminate H]. }
  assert (Ht : is_byte t) by (inversion Hx; assumption).
  destruct (Z.eq_dec (t / 16) 1) as [T1|T1].
  { unfold dec_APDU. rewrite decode_u1_ok, (land240 t Ht), T1.
    cbn [Z.mul Z.eqb Pos.mul Pos.eqb pduComplexAck pduSimpleAck orb pduUnconfirmed pduConfirmed].
    rewrite u1_known. destruct r as [|sv w].
    { cbn. split; [intros (? & ? & [])|intros (? & ? & H & _); discriminate H]. }
    cbn [dbuf]. rewrite decode_all. cbn [derr p_type p_uservice p_raw Z.eqb Pos.eqb pduUnconfirmed]. unfold usvcIAm.
    destruct (sv =? 0) eqn:E2; [|split; [intros (? & ? & [])|intros (? & ? & H & _); inversion H; subst; discriminate E2]].
    assert (sv = 0) by lia. subst sv.
    assert (Hw : is_bytes w) by (inversion Hx as [|? ? _ Hx']; inversion Hx'; assumption).
    assert (HA : announces (t :: 0 :: w) id m s v <-> iam_octets w = Some (id, m, s, v)).
    { split; [intros (? & ? & H & _ & K); inversion H; subst; exact K|intro K; exists t, w; auto]. }
    rewrite HA. destruct (iam_taken w Hw) as [(C & E)|(_ & E)].
    - rewrite E, (crash_no_iam w C). split; [intros (? & ? & [])|discriminate].
    - destruct (iam_octets w) as [[[[o m'] s'] v']|].
      + destruct E as (d & ->). cbn [fst In i_id i_maxapdu i_seg i_vendor]. split.
        * intros (k & a & [H|[]]). inversion H. reflexivity.
        * intro H. inversion H. subst. do 2 eexists. left. reflexivity.
      + destruct E as (i & e & d & ->). split; [intros (? & ? & [])|discriminate]. }
  assert (NA : ~ announces (t :: r) id m s v) by (intros (? & ? & H & K & _); inversion H; subst; contradiction).
  split; [|contradiction]. intros (k & a0 & K). exfalso.
  destruct (dec_APDU (mkDec (t :: r) p None)) as [[a [e|]] d] eqn:E; [exact K|].
  destruct (dec_apdu_type t r p Ht a None d E) as [Ety _]. rewrite Ety in K.
  replace (t / 16 * 16 =? pduUnconfirmed) with false in K by (unfold pduUnconfirmed; lia).
  repeat match type of K with context [if ?c then _ else _] => destruct c end; cbn [fst In] in K; intuition discriminate.
Qed.
Lemma published_exact : forall known src b id m s v, is_bytes b ->
  ((exists k a, In (EPubIAm k (mkIam id m s v a)) (fst (handleMsg known src b))) <-> exists f apdu, carries b f apdu /\ announces apdu id m s v).
Proof.
  intros known src b id m s v Hb. unfold handleMsg. destruct (dec_BVLC (newDecoder b)) as [h d] eqn:EB.
  assert (HNIL : (forall f apdu, ~ carries b f apdu) -> ((exists k a, In (EPubIAm k (mkIam id m s v a)) (fst (@nil effect, false))) <->
     exists f apdu, carries b f apdu /\ announces apdu id m s v)).
  { intro H. split; [intros (? & ? & [])|]. intros (f & apdu & K & _). exfalso. exact (H _ _ K). }
  destruct (derr d) eqn:Ed.
  { apply HNIL. intros f apdu (t & l1 & l2 & hdr & -> & _). unfold dec_BVLC, newDecoder in EB. rewrite !decode_u1_ok in EB.
    change (l1 :: l2 :: hdr ++ apdu) with ([l1; l2] ++ hdr ++ apdu) in EB. rewrite decode_u_ok in EB by (auto; discriminate). cbn [decode_n derr] in EB. inversion EB. subst. discriminate Ed. }
  destruct (bvlc_front b h d EB Ed) as (t & f & l1 & l2 & r & q & -> & -> & Ef). rewrite Ef. cbn [skipn].
  assert (Hr : is_bytes r) by (do 4 (inversion Hb as [|? ? _ Hb']; subst; clear Hb; rename Hb' into Hb); exact Hb).
  unfold bfBroadcast, bfUnicast, bfForwarded. destruct ((f =? 11) || (f =? 10) || (f =? 4)) eqn:EF.
  2:{ apply HNIL. intros f' apdu (t' & l1' & l2' & hdr & E & _ & K). inversion E. subst. lia. }
  destruct (dec_NPDU (mkDec r q None)) as [[[n nets] [e|]] d2] eqn:EN.
  { apply HNIL. intros f' apdu (t' & l1' & l2' & hdr & E & K & _). inversion E. subst.
    destruct (header_ok hdr apdu q K) as (n' & nets' & p' & E'). rewrite E' in EN. discriminate EN. }
  destruct (header_inv r q n nets d2 Hr EN) as (N2 & hdr & Eh & HO).
  assert (HU : forall f' apdu, carries (t :: f :: l1 :: l2 :: r) f' apdu -> f' = f /\ apdu = dbuf d2).
  { intros f' apdu (t' & l1' & l2' & hdr' & E & K & _). inversion E. subst f'. split; [reflexivity|].
    match goal with H : r = hdr' ++ apdu |- _ => rewrite H in EN end.
    destruct (header_ok hdr' apdu q K) as (n' & nets' & p' & E'). rewrite E' in EN. inversion EN. reflexivity. }
  assert (HC : carries (t :: f :: l1 :: l2 :: r) f (dbuf d2)).
  { exists t, l1, l2, hdr. split; [rewrite Eh at 1; reflexivity|]. split; [exact HO|]. lia. }
  assert (Hx : is_bytes (dbuf d2)) by (rewrite Eh in Hr; apply is_bytes_app in Hr; apply Hr).
  destruct d2 as [x p2 e2]. cbn [dbuf derr] in *. subst e2.
  pose proof (apdu_published known src n x p2 id m s v Hx) as AE. destruct (handle_apdu known src n (mkDec x p2 None)) as [[eff pan] early]. cbn [fst] in AE.
  transitivity (exists k a, In (EPubIAm k (mkIam id m s v a)) eff).
  - assert (NP : forall l : list effect, Forall pub_net l -> forall k a, ~ In (EPubIAm k (mkIam id m s v a)) l) by (intros l H k a K; rewrite Forall_forall in H; exact (H _ K)).
    match goal with |- (exists k a, In _ (fst (if _ then (?pubs ++ _, _) else _))) <-> _ => assert (HP : Forall pub_net pubs) end.
    { destruct (n_netmsg n); [|constructor]. apply Forall_app. split; match goal with |- Forall _ (if ?c then _ else _) => destruct c end; repeat constructor. }
    destruct (pan || early); cbn [fst]; (split; intros (k & a & K); exists k, a; [apply in_app_iff in K; destruct K as [K|K]; [exfalso; exact (NP _ HP k a K)|exact K]|apply in_app_iff; right; exact K]).
  - rewrite AE. split.
    + intro H. exists f, x. auto.
    + intros (f' & apdu & K & H). destruct (HU _ _ K) as [_ ->]. exact H.
Qed.
(** ** encodings determine what they encode *)
Lemma app_len_inv : forall (a b c d : list Z), length a = length c -> a ++ b = c ++ d -> a = c /\ b = d.
Proof.
  induction a as [|x a IH]; intros b [|y c] d HL H; try discriminate HL; [auto|]. cbn [app] in H. injection H as -> H.
  destruct (IH b c d) as [-> ->]; [cbn in HL; lia|exact H|]. auto.
Qed.
Lemma usize_pos : forall v, 1 <= usize v.
Proof. intro v. unfold usize. pose proof (Z.log2_nonneg v). lia. Qed.
Lemma usize_fit : forall v, 0 <= v -> v < 256 ^ usize v.
Proof.
  intros v Hv. unfold usize. destruct (Z.eq_dec v 0) as [->|H]; [reflexivity|].
  pose proof (Z.log2_spec v ltac:(lia)) as [_ H2]. pose proof (Z.log2_nonneg v).
  change 256 with (2 ^ 8). rewrite <- Z.pow_mul_r by lia. eapply Z.lt_le_trans; [exact H2|]. apply Z.pow_le_mono_r; lia.
Qed.
Lemma ctx_unsigned_prefix : forall t v v' r r', 0 <= t < 15 -> in_u32 v -> spec_ctx_unsigned t v ++ r = spec_ctx_unsigned t v' ++ r' ->
  r = r' /\ (0 <= v' -> v' = v).
Proof.
  intros t v v' r r' Ht Hv H. unfold spec_ctx_unsigned, spec_tag, spec_unsigned in H. pose proof (usize_le4 v Hv) as HU. pose proof (usize_pos v') as HU'.
  replace (t <? 15) with true in H by lia. replace (usize v <? 5) with true in H by lia. destruct (usize v' <? 5) eqn:E5.
  2:{ cbn [app] in H. injection H as H _. lia. }
  cbn [app] in H. injection H as H0 H. assert (EU : usize v' = usize v) by lia. rewrite EU in H.
  apply app_len_inv in H; [|rewrite !octets_length; reflexivity]. destruct H as [H ->]. split; [reflexivity|]. intro Hv'.
  assert (HB : be_val (octets (Z.to_nat (usize v)) v) = be_val (octets (Z.to_nat (usize v)) v')) by congruence.
  pose proof (usize_fit v ltac:(unfold in_u32 in Hv; lia)) as F1. pose proof (usize_fit v' Hv') as F2. rewrite EU in F2.
  rewrite !be_val_octets in HB by (rewrite Z2Nat.id by lia; unfold in_u32 in Hv; lia). congruence.
Qed.
(** C46 *)
Lemma whois_limits_inj : forall lo hi lo' hi', in_u32 lo -> in_u32 hi -> spec_whois (Some (lo, hi)) = spec_whois (Some (lo', hi')) -> 0 <= hi' -> hi' = hi.
Proof.
  intros lo hi lo' hi' H1 H2 H Hh. unfold spec_whois in H. apply app_inv_head in H. apply ctx_unsigned_prefix in H; [|lia|exact H1]. destruct H as [H _].
  rewrite <- (app_nil_r (spec_ctx_unsigned 1 hi)), <- (app_nil_r (spec_ctx_unsigned 1 hi')) in H.
  apply ctx_unsigned_prefix in H; [|lia|exact H2]. apply H. exact Hh.
Qed.
Lemma whois_exact : forall bcast me wh ip port, addr_UDPAddr bcast = Some (ip, port) -> addr_ok (whois_dest bcast wh) -> opt_addr_ok me ->
  let dest := whois_dest bcast wh in
  let n := mkNpdu 1 (Some dest) me 0 false 0 false 0 255 in
  let lo := requested_low wh in
  let hi := requested_high wh in
  exists apdu, whois_frame bcast me wh = ROk (Some (mkDgram ip port (spec_bvlc (send_func dest None) (spec_npdu n ++ apdu))))
  /\ ((forall i, lo <= i <= hi -> asks apdu i)
      <-> (hi < lo \/ hi < 2 ^ 32 \/ 4194303 <= lo mod 2 ^ 32 \/ 4194303 <= hi mod 2 ^ 32)).
Proof.
  intros bcast me wh ip port Hu Hd Hm dest n lo hi.
  assert (HN : npdu_ok n).
  { unfold n, npdu_ok. cbn [n_version n_dest n_src n_vendor n_msgtype n_prio n_hop opt_addr_ok]. unfold is_byte. repeat split; try assumption; try lia; apply Hd. }
  pose proof (whois_range_requested wh) as ER. unfold whois_sub in ER.
  unfold whois_frame. fold dest. rewrite ER. fold n lo hi. unfold newEncoder. rewrite enc_npdu_spec by exact HN. cbn [rbind app].
  rewrite enc_whois_spec. cbn [ebuf].
  assert (Hl : 0 <= lo) by (unfold lo, requested_low; lia). assert (Hh : 0 <= hi) by (unfold hi, requested_high; destruct (0 <? wh_high wh) eqn:E; lia).
  exists (spec_whois (whois_limits (i32 lo) (i32 hi))). clearbody lo hi. split.
  - unfold send_dgram. replace (addr_UDPAddr dest) with (Some (ip, port)) by (symmetry; exact Hu). rewrite frame_small; [reflexivity|].
    rewrite zlen_app. pose proof (npdu_len n HN). unfold whois_limits. destruct (_ && _) eqn:E.
    + unfold spec_whois. rewrite !zlen_app, !ctx_unsigned_len by (unfold in_u32; lia). change (zlen (spec_unconfirmed 8)) with 2.
      pose proof (usize_le4 (i32 lo) ltac:(unfold in_u32; lia)). pose proof (usize_le4 (i32 hi) ltac:(unfold in_u32; lia)). lia.
    + change (zlen (spec_whois None)) with 2. lia.
  - assert (M : forall x, 0 <= x -> ((0 <=? i32 x) && (i32 x <? 4194303) = true <-> x mod 2 ^ 32 < 4194303)).
    { intros x Hx. unfold i32. change (2 ^ 32) with 4294967296. change (2 ^ 31) with 2147483648. lia. }
    assert (MI : forall x, 0 <= x -> x mod 2 ^ 32 < 4194303 -> i32 x = x mod 2 ^ 32).
    { intros x Hx. unfold i32. change (2 ^ 32) with 4294967296. change (2 ^ 31) with 2147483648. lia. }
    unfold whois_limits. destruct (_ && _) eqn:E.
    + assert (EL : lo mod 2 ^ 32 < 4194303) by (apply M; [exact Hl|lia]). assert (EH : hi mod 2 ^ 32 < 4194303) by (apply M; [exact Hh|lia]).
      rewrite (MI lo Hl EL), (MI hi Hh EH). split.
      * intro H. destruct (Z_lt_dec hi lo) as [C|C]; [left; exact C|]. right. left. destruct (H hi ltac:(lia)) as [K|(lo' & hi' & K & Hr)].
        { exfalso. unfold spec_whois in K. apply app_inv_head in K. unfold spec_ctx_unsigned, spec_tag in K. discriminate K. }
        assert (HZ : hi' = hi mod 2 ^ 32).
        { eapply whois_limits_inj; [| |exact K|]; change (2 ^ 32) with 4294967296 in *; unfold in_u32; lia. }
        change (2 ^ 32) with 4294967296 in *. lia.
      * intros [C|[C|[C|C]]]; intros i Hi; try lia. right. do 2 eexists. split; [reflexivity|]. change (2 ^ 32) with 4294967296 in *. lia.
    + split; [|intros _ i Hi; left; reflexivity]. intros _. right. right.
      pose proof (M lo Hl). pose proof (M hi Hh). destruct (Z_lt_dec (lo mod 2 ^ 32) 4194303); [|left; lia]. destruct (Z_lt_dec (hi mod 2 ^ 32) 4194303); [|right; lia]. exfalso. lia.
Qed.
