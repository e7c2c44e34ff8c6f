(** BVLC, NPDU and APDU headers, I-Am, Who-Is, router lists and error PDUs. *)
From Coq Require Import Lia ZifyBool ZifyNat.
From Verif Require Import ModelDec SpecWire SpecLayers ProofsWire ProofsTag ProofsApp ProofsTrunc ProofsCodec.
Ltac Zify.zify_post_hook ::= Z.div_mod_to_equations.

(** ** BVLC *)
Lemma enc_bvlc_spec : forall t f l data b, is_byte t -> is_byte f ->
  enc_BVLC (mkBvlc t f l data) (mkEnc b None) = mkEnc (b ++ t :: f :: octets 2 l ++ data) None.
Proof.
  intros. unfold enc_BVLC. cbn [v_type v_func v_len v_data].
  rewrite !write_u8_ok by (unfold is_byte in *; lia). unfold write_u16. rewrite be16_octets, !write_ok.
  rewrite <- !app_assoc. reflexivity.
Qed.
Lemma dec_bvlc_spec : forall t f l rest p, 0 <= l < 65536 ->
  dec_BVLC (mkDec (t :: f :: octets 2 l ++ rest) p None)
  = (mkBvlc t f l [], mkDec rest (Some (l mod 256)) None).
Proof.
  intros. unfold dec_BVLC. rewrite !decode_u1_ok. rewrite decode_u_octets by (simpl; try congruence; lia).
  rewrite decode_n_0 by reflexivity. cbn. rewrite Z.div_1_r. reflexivity.
Qed.

(** ** NPDU *)
Lemma meta_bits : forall nm rp dst src prio, 0 <= prio < 4 ->
  let m := bit_z nm * 128 + bit_z dst * 32 + bit_z src * 8 + bit_z rp * 4 + prio in
  checkMask m maskNetMsg = nm /\ checkMask m maskDest = dst /\ checkMask m maskSrc = src
  /\ checkMask m maskReply = rp /\ Z.land m 3 = prio /\ is_byte m.
Proof.
  intros nm rp dst src prio Hp.
  assert (C : prio = 0 \/ prio = 1 \/ prio = 2 \/ prio = 3) by lia.
  destruct C as [->|[->|[->| ->]]]; destruct nm, rp, dst, src; vm_compute; repeat split; congruence.
Qed.
Lemma npdu_meta_spec : forall n, 0 <= n_prio n < 4 ->
  npdu_meta n = bit_z (n_netmsg n) * 128 + bit_z (present (n_dest n)) * 32 + bit_z (present (n_src n)) * 8
   + bit_z (n_reply n) * 4 + n_prio n.
Proof.
  intros [v d s vd nm mt rp pr h] Hp. cbn in Hp. unfold npdu_meta. cbn [n_netmsg n_reply n_prio n_dest n_src].
  assert (C : pr = 0 \/ pr = 1 \/ pr = 2 \/ pr = 3) by lia.
  assert (Hd : match d with Some a => negb (a_net a =? 0) | None => false end = present d) by (destruct d; reflexivity).
  assert (Hs : match s with Some a => negb (a_net a =? 0) | None => false end = present s) by (destruct s; reflexivity).
  set (m0 := Z.lor _ pr).
  assert (E1 : match d with Some a => if negb (a_net a =? 0) then setInfoMask m0 true maskDest else m0 | None => m0 end
             = if present d then setInfoMask m0 true maskDest else m0) by (rewrite <- Hd; destruct d; reflexivity).
  rewrite E1. set (m1 := if present d then _ else _).
  assert (E2 : match s with Some a => if negb (a_net a =? 0) then setInfoMask m1 true maskSrc else m1 | None => m1 end
             = if present s then setInfoMask m1 true maskSrc else m1) by (rewrite <- Hs; destruct s; reflexivity).
  rewrite E2. subst m1 m0. clear E1 E2 Hd Hs.
  destruct C as [->|[->|[->| ->]]]; destruct nm, rp, (present d), (present s); reflexivity.
Qed.
Lemma enc_addr_spec : forall a b, addr_ok a -> enc_addr a (mkEnc b None) = mkEnc (b ++ spec_addr a) None.
Proof.
  intros a b (Hn & Hl & Hl2 & Hb). unfold enc_addr, spec_addr. unfold write_u16. rewrite be16_octets, write_ok.
  rewrite Hl. rewrite write_u8_ok by (unfold zlen in *; lia). rewrite write_ok, <- !app_assoc. reflexivity.
Qed.
Lemma dec_addr_spec : forall a rest p, addr_ok a -> exists p',
  dec_Address (mkDec (spec_addr a ++ rest) p None) = (mkAddr (a_net a) (zlen (a_adr a)) 0 [] (a_adr a), mkDec rest p' None).
Proof.
  intros a rest p (Hn & Hl & Hl2 & Hb). unfold dec_Address, spec_addr. rewrite <- app_assoc.
  rewrite decode_u_octets by (simpl; try congruence; lia).
  cbn [app]. rewrite decode_u1_ok. replace (Z.to_nat (zlen (a_adr a))) with (length (a_adr a)) by (unfold zlen; lia).
  rewrite decode_n_ok0. eexists. reflexivity.
Qed.

Lemma enc_npdu_spec : forall n b, npdu_ok n -> enc_NPDU n (mkEnc b None) = ROk (mkEnc (b ++ spec_npdu n) None).
Proof.
  intros n b (Hv & Hd & Hs & Hvd & Hm & Hp & Hh). unfold enc_NPDU, spec_npdu.
  rewrite npdu_meta_spec by assumption.
  destruct (meta_bits (n_netmsg n) (n_reply n) (present (n_dest n)) (present (n_src n)) (n_prio n) Hp)
    as (M1 & M2 & M3 & M4 & M5 & Mb).
  set (m := _ + _ + n_prio n) in *. cbv zeta in *. rewrite M1, M2, M3.
  unfold is_byte in *. rewrite write_u8_ok by lia. rewrite write_u8_ok by lia.
  assert (ED : forall b, (if present (n_dest n) then match n_dest n with Some a => ROk (enc_addr a (mkEnc b None)) | None => RPanic end
                else ROk (mkEnc b None)) = ROk (mkEnc (b ++ spec_opt_addr (n_dest n)) None)).
  { intro b0. unfold spec_opt_addr. destruct (n_dest n) as [a|]; cbn [present].
    - destruct (negb (a_net a =? 0)); [rewrite enc_addr_spec by assumption; reflexivity|rewrite app_nil_r; reflexivity].
    - rewrite app_nil_r. reflexivity. }
  rewrite ED. cbn [rbind].
  assert (ES : forall b, (if present (n_src n) then match n_src n with Some a => ROk (enc_addr a (mkEnc b None)) | None => RPanic end
                else ROk (mkEnc b None)) = ROk (mkEnc (b ++ spec_opt_addr (n_src n)) None)).
  { intro b0. unfold spec_opt_addr. destruct (n_src n) as [a|]; cbn [present].
    - destruct (negb (a_net a =? 0)); [rewrite enc_addr_spec by assumption; reflexivity|rewrite app_nil_r; reflexivity].
    - rewrite app_nil_r. reflexivity. }
  rewrite ES. cbn [rbind]. f_equal.
  assert (EH : forall b, (if present (n_dest n) then write_u8 (n_hop n) (mkEnc b None) else mkEnc b None)
               = mkEnc (b ++ (if present (n_dest n) then [n_hop n] else [])) None).
  { intro b0. destruct (present (n_dest n)); [rewrite write_u8_ok by lia; reflexivity|rewrite app_nil_r; reflexivity]. }
  rewrite EH. destruct (n_netmsg n).
  - rewrite write_u8_ok by lia. destruct (128 <=? n_msgtype n).
    + unfold write_u16. rewrite be16_octets, write_ok. f_equal. rewrite <- !app_assoc. reflexivity.
    + f_equal. rewrite <- !app_assoc. reflexivity.
  - f_equal. rewrite <- !app_assoc. rewrite app_nil_r. reflexivity.
Qed.

(** message types whose body the NPDU decoder does not itself consume *)
Lemma dec_npdu_spec : forall n rest p, npdu_ok n ->
  (n_netmsg n = true -> n_msgtype n <> 128 /\ n_msgtype n <> 1 /\ n_msgtype n <> 19) ->
  exists p', dec_NPDU (mkDec (spec_npdu n ++ rest) p None) = ((npdu_seen n, [], None), mkDec rest p' None).
Proof.
  intros n rest p (Hv & Hd & Hs & Hvd & Hm & Hp & Hh) Hmt. unfold dec_NPDU, spec_npdu.
  destruct (meta_bits (n_netmsg n) (n_reply n) (present (n_dest n)) (present (n_src n)) (n_prio n) Hp)
    as (M1 & M2 & M3 & M4 & M5 & Mb).
  set (m := _ + _ + n_prio n) in *. cbv zeta in *.
  cbn [app]. rewrite !decode_u1_ok. rewrite M1, M2, M3, M4, M5.
  assert (ED : forall r q, exists q', (if present (n_dest n) then let '(a, d) := dec_Address (mkDec (spec_opt_addr (n_dest n) ++ r) q None) in (Some a, d)
        else (None, mkDec (spec_opt_addr (n_dest n) ++ r) q None)) = (seen_addr (n_dest n), mkDec r q' None)).
  { intros r q. unfold spec_opt_addr, seen_addr. destruct (n_dest n) as [a|]; cbn [present].
    - destruct (negb (a_net a =? 0)); [|eexists; reflexivity].
      destruct (dec_addr_spec a r q Hd) as [q' E]. rewrite E. eexists; reflexivity.
    - eexists; reflexivity. }
  assert (ES : forall r q, exists q', (if present (n_src n) then let '(a, d) := dec_Address (mkDec (spec_opt_addr (n_src n) ++ r) q None) in (Some a, d)
        else (None, mkDec (spec_opt_addr (n_src n) ++ r) q None)) = (seen_addr (n_src n), mkDec r q' None)).
  { intros r q. unfold spec_opt_addr, seen_addr. destruct (n_src n) as [a|]; cbn [present].
    - destruct (negb (a_net a =? 0)); [|eexists; reflexivity].
      destruct (dec_addr_spec a r q Hs) as [q' E]. rewrite E. eexists; reflexivity.
    - eexists; reflexivity. }
  rewrite <- !app_assoc.
  match goal with |- context [mkDec (spec_opt_addr (n_dest n) ++ ?r) ?q None] => destruct (ED r q) as [q1 E1] end.
  rewrite E1. clear E1 ED.
  match goal with |- context [mkDec (spec_opt_addr (n_src n) ++ ?r) ?q None] => destruct (ES r q) as [q2 E2] end.
  rewrite E2. clear E2 ES.
  assert (EH : forall r q, exists q', (if present (n_dest n) then decode_u 1 0 (mkDec ((if present (n_dest n) then [n_hop n] else []) ++ r) q None)
        else (0, mkDec ((if present (n_dest n) then [n_hop n] else []) ++ r) q None))
        = (if present (n_dest n) then n_hop n else 0, mkDec r q' None)).
  { intros r q. destruct (present (n_dest n)); cbn [app]; [rewrite decode_u1_ok|]; eexists; reflexivity. }
  match goal with |- context [mkDec ((if present (n_dest n) then _ else _) ++ ?r) ?q None] => destruct (EH r q) as [q3 E3] end.
  rewrite E3. clear E3 EH.
  unfold npdu_seen. destruct (n_netmsg n).
  - destruct (Hmt eq_refl) as (N1 & N2 & N3). cbn [app andb]. rewrite decode_u1_ok.
    unfold ndpuNetworkIs, ndpuIamRouterToNetwork.
    replace (n_msgtype n =? 19) with false by lia. replace (n_msgtype n =? 1) with false by lia.
    destruct (128 <=? n_msgtype n) eqn:E8.
    + replace (128 <? n_msgtype n) with true by lia. rewrite decode_u_octets by (simpl; try congruence; lia).
      eexists. reflexivity.
    + replace (128 <? n_msgtype n) with false by lia. eexists. reflexivity.
  - cbn [app andb]. eexists. reflexivity.
Qed.

(** when writing a network header crashes *)
Lemma checkMask_bit : forall m k, 0 <= k -> checkMask m (2 ^ k) = Z.testbit m k.
Proof.
  intros m k Hk. unfold checkMask.
  assert (Hb : Z.land m (2 ^ k) = if Z.testbit m k then 2 ^ k else 0).
  { apply Z.bits_inj'. intros j Hj. rewrite Z.land_spec, Z.pow2_bits_eqb by lia.
    destruct (Z.eqb_spec k j).
    - subst j. rewrite andb_true_r. destruct (Z.testbit m k);
      [rewrite Z.pow2_bits_true by lia; reflexivity|rewrite Z.bits_0; reflexivity].
    - rewrite andb_false_r. destruct (Z.testbit m k);
      [rewrite Z.pow2_bits_false by lia; reflexivity|rewrite Z.bits_0; reflexivity]. }
  rewrite Hb. destruct (Z.testbit m k); [|reflexivity].
  assert (0 < 2 ^ k) by (apply Z.pow_pos_nonneg; lia). lia.
Qed.

(** ** sizes *)
Lemma segs_loop_small : forall s, 1 <= s < 64 -> exists i, 0 <= i <= 5 /\ segs_loop 6 0 s = i * 16 /\ 2 ^ i <= s.
Proof.
  intros s Hs.
  pose proof (sweep1 63 (fun k => let s := k + 1 in
     existsb (fun i => (segs_loop 6 0 s =? i * 16) && (2 ^ i <=? s)) (zrange 6)) eq_refl (s - 1) ltac:(lia)) as E.
  cbv beta zeta in E. replace (s - 1 + 1) with s in E by lia. apply existsb_exists in E.
  destruct E as (i & Hi & E). apply andb_true_iff in E. destruct E as [E1 E2].
  exists i. unfold zrange in Hi. apply in_map_iff in Hi. destruct Hi as (k & <- & Hk). apply in_seq in Hk.
  repeat split; lia.
Qed.
Lemma segs_code : forall s, 1 <= s -> exists i, 0 <= i <= 7 /\
  (if s =? 64 then 96 else if 64 <? s then 112 else segs_loop 6 0 s) = i * 16
  /\ (if 7 <=? i then 65 else 2 ^ i) <= s.
Proof.
  intros s Hs. destruct (Z.eqb_spec s 64).
  - exists 6. subst. repeat split; try lia. vm_compute. congruence.
  - destruct (64 <? s) eqn:E.
    + exists 7. change (7 <=? 7) with true. cbv iota. lia.
    + destruct (segs_loop_small s ltac:(lia)) as (i & Hi & E1 & E2). exists i.
      replace (7 <=? i) with false by lia. repeat split; lia.
Qed.
Lemma maxapdu_code : forall s a, exists i c, 0 <= i <= 7 /\ 0 <= c <= 5
  /\ encodeMaxSegsMaxApdu s a = i * 16 + c /\ nth (Z.to_nat c) apdu_sizes 0 = size_up a
  /\ (1 <= s -> (if 7 <=? i then 65 else 2 ^ i) <= s).
Proof.
  intros s a. unfold encodeMaxSegsMaxApdu. cbv zeta.
  assert (H : exists i, 0 <= i <= 7 /\ (if s =? 64 then 96 else if 64 <? s then 112 else segs_loop 6 0 s) = i * 16
     /\ (1 <= s -> (if 7 <=? i then 65 else 2 ^ i) <= s)).
  { destruct (Z_le_dec 1 s).
    - destruct (segs_code s l) as (i & Hi & E1 & E2). exists i. auto.
    - exists 0. replace (s =? 64) with false by lia. replace (64 <? s) with false by lia.
      repeat split; try lia. cbn [segs_loop]. replace (s <? Z.shiftl 1 (0 + 1)) with true.
      + reflexivity.
      + symmetry. apply Z.ltb_lt. cbn. lia. }
  destruct H as (i & Hi & -> & Hs). exists i.
  assert (L : forall c, 0 <= c <= 5 -> Z.lor (i * 16) c = i * 16 + c).
  { intros c Hc. apply lor_small_table; lia. }
  unfold size_up.
  destruct (a <=? 50); [exists 0; rewrite L by lia; repeat split; try lia; auto|].
  destruct (a <=? 128); [exists 1; rewrite L by lia; repeat split; try lia; auto|].
  destruct (a <=? 206); [exists 2; rewrite L by lia; repeat split; try lia; auto|].
  destruct (a <=? 480); [exists 3; rewrite L by lia; repeat split; try lia; auto|].
  destruct (a <=? 1024); [exists 4; rewrite L by lia; repeat split; try lia; auto|].
  destruct (a <=? 1476); [exists 5; rewrite L by lia; repeat split; try lia; auto|].
  exists 0. repeat split; try lia; auto.
Qed.
Lemma decode_code : forall i c, 0 <= i <= 7 -> 0 <= c <= 5 ->
  decodeMaxApdu (i * 16 + c) = nth (Z.to_nat c) apdu_sizes 0
  /\ decodeMaxSegs (i * 16 + c) = (if 7 <=? i then 65 else 2 ^ i).
Proof.
  intros i c Hi Hc.
  pose proof (sweep2 8 6 (fun i c => (decodeMaxApdu (i * 16 + c) =? nth (Z.to_nat c) apdu_sizes 0)
    && (decodeMaxSegs (i * 16 + c) =? (if 7 <=? i then 65 else 2 ^ i))) eq_refl i c ltac:(lia) ltac:(lia)) as E.
  cbv beta in E. rewrite andb_true_iff, !Z.eqb_eq in E. exact E.
Qed.
Lemma sizes_round : forall s a,
  decodeMaxApdu (encodeMaxSegsMaxApdu s a) = size_up a
  /\ (1 <= s -> decodeMaxSegs (encodeMaxSegsMaxApdu s a) <= s)
  /\ is_byte (encodeMaxSegsMaxApdu s a).
Proof.
  intros s a. destruct (maxapdu_code s a) as (i & c & Hi & Hc & E & En & Hs). rewrite E.
  destruct (decode_code i c Hi Hc) as [-> ->]. repeat split; auto; unfold is_byte; lia.
Qed.
Lemma size_up_std : forall a, In a apdu_sizes -> size_up a = a.
Proof. intros a H. simpl in H. destruct H as [<-|[<-|[<-|[<-|[<-|[<-|[]]]]]]]; reflexivity. Qed.

(** ** APDU headers *)
Lemma apdu_meta_bits : forall ty seg more sa, ty = 0 \/ ty = 16 \/ ty = 32 \/ ty = 48 \/ ty = 80 ->
  let m := ty + flags seg more sa in
  Z.lor (Z.land 0 240) ty = ty
  /\ checkMask m apduMaskSegmented = seg /\ checkMask m apduMaskMoreFollows = more
  /\ checkMask m apduMaskSegmentedAccepted = sa /\ Z.land 240 m = ty /\ is_byte m
  /\ setInfoMask (setInfoMask (setInfoMask ty more apduMaskMoreFollows) seg apduMaskSegmented) sa apduMaskSegmentedAccepted = m.
Proof.
  intros ty seg more sa [->|[->|[->|[->| ->]]]]; destruct seg, more, sa; vm_compute; repeat split; congruence.
Qed.

Lemma enc_apdu_confirmed_spec : forall a b, p_type a = pduConfirmed ->
  is_byte (p_invoke a) -> is_byte (p_seq a) -> is_byte (p_window a) -> is_byte (p_service a) ->
  enc_APDU a (mkEnc b None) = (mkEnc (b ++ spec_confirmed (p_seg a) (p_more a) (p_segacc a)
     (encodeMaxSegsMaxApdu (p_maxsegs a) (p_maxapdu a)) (p_invoke a) (p_seq a) (p_window a) (p_service a)) None, None).
Proof.
  intros a b Ht Hi Hq Hw Hs. unfold enc_APDU, apdu_meta. rewrite Ht.
  destruct (apdu_meta_bits 0 (p_seg a) (p_more a) (p_segacc a) ltac:(auto)) as (E0 & _ & _ & _ & _ & Eb & Em).
  cbv zeta in *. unfold pduConfirmed in *. rewrite E0, Em. rewrite Z.add_0_l in *.
  destruct (sizes_round (p_maxsegs a) (p_maxapdu a)) as (_ & _ & Hz).
  unfold is_byte in *. rewrite write_u8_ok by lia.
  change (0 =? pduComplexAck) with false. change (0 =? pduUnconfirmed) with false. change (0 =? 0) with true. cbv iota.
  unfold enc_apduConfirmed, spec_confirmed. rewrite !write_u8_ok by lia.
  destruct (p_seg a); rewrite !write_u8_ok by lia; rewrite <- !app_assoc; reflexivity.
Qed.
Lemma enc_apdu_unconfirmed_spec : forall svc b, is_byte svc ->
  enc_APDU (mkApdu pduUnconfirmed false false false 0 0 0 0 0 0 svc 0 0 []) (mkEnc b None)
  = (mkEnc (b ++ spec_unconfirmed svc) None, None).
Proof.
  intros svc b Hs. unfold enc_APDU. cbn [p_type]. change (apdu_meta _) with 16.
  unfold is_byte in *. cbn [p_uservice].
  change (pduUnconfirmed =? pduComplexAck) with false. change (pduUnconfirmed =? pduUnconfirmed) with true. cbv iota.
  rewrite !write_u8_ok by lia. rewrite <- app_assoc. reflexivity.
Qed.
Lemma enc_apdu_complex_spec : forall ms ma inv svc b, is_byte inv -> is_byte svc ->
  enc_APDU (mkApdu pduComplexAck false false false ms ma inv 0 0 svc 0 0 0 []) (mkEnc b None)
  = (mkEnc (b ++ spec_complex_ack inv svc) None, None).
Proof.
  intros ms ma inv svc b Hi Hs. unfold enc_APDU. cbn [p_type]. change (apdu_meta _) with 48.
  unfold is_byte in *. cbn [p_service p_invoke].
  change (pduComplexAck =? pduComplexAck) with true. cbv iota.
  rewrite !write_u8_ok by lia. rewrite <- !app_assoc. reflexivity.
Qed.

Lemma decode_all : forall w p, decode_n (length w) (mkDec w p None)
  = (Some w, mkDec [] (match w with [] => p | _ => Some (last w 0) end) None).
Proof.
  intros. pose proof (decode_n_ok0 w [] p) as E. rewrite app_nil_r in E. rewrite E. destruct w; reflexivity.
Qed.
Lemma dec_apdu_confirmed_spec : forall seg more sa sizes inv seq win svc w p, exists p',
  dec_APDU (mkDec (spec_confirmed seg more sa sizes inv seq win svc ++ w) p None)
  = ((mkApdu 0 seg more sa (decodeMaxSegs sizes) (decodeMaxApdu sizes) inv
        (if seg then seq else 0) (if seg then win else 0) svc 0 0 0 w, None), mkDec [] p' None).
Proof.
  intros. unfold dec_APDU, spec_confirmed.
  destruct (apdu_meta_bits 0 seg more sa ltac:(auto)) as (_ & E1 & E2 & E3 & E4 & _ & _).
  cbv zeta in *. rewrite Z.add_0_l in *. cbn [app]. rewrite decode_u1_ok. rewrite E1, E2, E3, E4.
  change (0 =? pduComplexAck) with false. change (0 =? pduSimpleAck) with false.
  change (0 =? pduUnconfirmed) with false. change (0 =? pduConfirmed) with true. cbv iota. cbn [orb].
  rewrite !decode_u1_ok.
  destruct seg; cbn [app]; rewrite !decode_u1_ok; cbn [dbuf];
    (destruct (0 <? length w)%nat eqn:E;
     [ rewrite decode_all; cbn [derr]; eexists; reflexivity
     | destruct w; [|apply Nat.ltb_ge in E; simpl in E; lia]; cbn [derr]; eexists; reflexivity ]).
Qed.
Lemma dec_apdu_unconfirmed_spec : forall svc w p, exists p',
  dec_APDU (mkDec (spec_unconfirmed svc ++ w) p None)
  = ((mkApdu 16 false false false 0 0 0 0 0 0 svc 0 0 w, None), mkDec [] p' None).
Proof.
  intros. unfold dec_APDU, spec_unconfirmed. cbn [app]. rewrite decode_u1_ok.
  change (Z.land 240 16) with 16. change (16 =? pduComplexAck) with false. change (16 =? pduSimpleAck) with false.
  change (16 =? pduUnconfirmed) with true. cbv iota. cbn [orb]. rewrite decode_u1_ok. cbn [dbuf].
  rewrite decode_all. cbn [derr]. eexists; reflexivity.
Qed.
Lemma dec_apdu_ack_spec : forall ty inv svc w p, ty = 32 \/ ty = 48 ->
  dec_APDU (mkDec ([ty; inv; svc] ++ w) p None)
  = ((mkApdu ty false false false 0 0 inv 0 0 svc 0 0 0 [], None), mkDec w (Some svc) None).
Proof.
  intros. unfold dec_APDU. cbn [app]. rewrite decode_u1_ok.
  destruct H; subst ty.
  - change (Z.land 240 32) with 32. cbn [Z.eqb Pos.eqb pduComplexAck pduSimpleAck orb]. rewrite !decode_u1_ok. reflexivity.
  - change (Z.land 240 48) with 48. cbn [Z.eqb Pos.eqb pduComplexAck pduSimpleAck orb]. rewrite !decode_u1_ok. reflexivity.
Qed.

(** ** I-Am *)
Lemma enc_iam_spec : forall i b, iam_ok i -> enc_IAm i (mkEnc b None) = ROk (mkEnc (b ++ spec_iam i) None, None).
Proof.
  intros i b (H1 & H2 & H3 & H4). unfold enc_IAm, spec_iam.
  rewrite !write_u8_ok by (unfold usvcIAm, pduUnconfirmed; lia).
  rewrite enc_app_written by assumption. cbn [rbind].
  rewrite enc_app_written by assumption. cbn [rbind].
  rewrite enc_app_written by assumption. cbn [rbind].
  rewrite enc_app_written by assumption. cbn [rbind eerr app_written].
  rewrite <- !app_assoc. reflexivity.
Qed.
Lemma dec_iam_spec : forall i rest p, iam_ok i -> exists p',
  dec_IAm (mkDec (spec_app (VOid (i_id i)) ++ spec_app (VUint (i_maxapdu i)) ++ spec_app (VEnum (i_seg i))
                  ++ spec_app (VUint (i_vendor i)) ++ rest) p None)
  = Val (mkIam (i_id i) (i_maxapdu i) (i_seg i) (i_vendor i) addr0, None) (mkDec rest p' None).
Proof.
  intros i rest p (H1 & H2 & H3 & H4). unfold dec_IAm.
  rewrite dec_app_readable by assumption. cbn [obind as_read].
  rewrite dec_app_readable by assumption. cbn [obind as_read].
  rewrite dec_app_readable by assumption. cbn [obind as_read].
  rewrite dec_app_readable by assumption. cbn [obind as_read fst derr].
  eexists. reflexivity.
Qed.

(** ** Who-Is *)
Lemma enc_ctx_unsigned_spec : forall num v b, 0 <= num < 256 -> 0 <= v < 2 ^ 32 ->
  contextUnsigned num v (mkEnc b None) = mkEnc (b ++ spec_ctx_unsigned num v) None.
Proof.
  intros. unfold contextUnsigned, spec_ctx_unsigned. rewrite valueLength_usize by assumption.
  pose proof (usize_bound v H0). rewrite u32_small by lia. rewrite enc_ctx_tag by lia.
  rewrite enc_unsigned_spec by assumption. rewrite <- app_assoc. reflexivity.
Qed.
Lemma dec_ctx_unsigned_spec : forall num v rest p, 0 <= num < 256 -> 0 <= v < 2 ^ 32 ->
  exists meta p1, tagNumberAndValue (mkDec (spec_ctx_unsigned num v ++ rest) p None)
     = ((num, meta, usize v), mkDec (spec_unsigned v ++ rest) p1 None)
  /\ dec_unsigned (usize v) (mkDec (spec_unsigned v ++ rest) p1 None)
     = (v, mkDec rest (Some (last (spec_unsigned v) 0)) None).
Proof.
  intros. unfold spec_ctx_unsigned. rewrite <- app_assoc. pose proof (usize_bound v H0).
  rewrite tag_round by lia. do 2 eexists. split; [reflexivity|]. apply dec_unsigned_spec. assumption.
Qed.
Lemma enc_whois_spec : forall low high b,
  enc_WhoIs low high (mkEnc b None) = mkEnc (b ++ spec_whois (whois_limits low high)) None.
Proof.
  intros. unfold enc_WhoIs, spec_whois, whois_limits, MaxInstance.
  rewrite !write_u8_ok by (unfold usvcWhoIs, pduUnconfirmed; lia).
  destruct ((0 <=? low) && (0 <=? high) && (low <? 4194303) && (high <? 4194303)) eqn:E.
  - rewrite !u32_small by lia. rewrite !enc_ctx_unsigned_spec by lia. rewrite <- !app_assoc. reflexivity.
  - rewrite <- !app_assoc. reflexivity.
Qed.
Lemma dec_whois_spec : forall lim p, match lim with Some (lo, hi) => 0 <= lo < 4194303 /\ 0 <= hi < 4194303 | None => True end ->
  fst (dec_WhoIs (mkDec (match lim with Some (lo, hi) => spec_ctx_unsigned 0 lo ++ spec_ctx_unsigned 1 hi | None => [] end) p None))
  = (match lim with Some (lo, hi) => (lo, hi, None) | None => (-1, -1, None) end).
Proof.
  intros [[lo hi]|] p H; [|reflexivity]. destruct H as [H1 H2]. unfold dec_WhoIs.
  replace (dlen _ =? 0) with false.
  2:{ symmetry. unfold dlen, zlen. cbn [dbuf]. rewrite app_length. unfold spec_ctx_unsigned at 1. rewrite app_length.
      assert (length (spec_tag 1 0 (usize lo)) <> O) by (intro E; apply length_zero_iff_nil in E; revert E; apply spec_tag_nonempty).
      lia. }
  destruct (dec_ctx_unsigned_spec 0 lo (spec_ctx_unsigned 1 hi) p ltac:(lia) ltac:(lia)) as (m1 & q1 & E1 & E2).
  rewrite E1. change (negb (0 =? 0)) with false. cbv iota. rewrite E2.
  destruct (dec_ctx_unsigned_spec 1 hi [] (Some (last (spec_unsigned lo) 0)) ltac:(lia) ltac:(lia)) as (m2 & q2 & E3 & E4).
  rewrite app_nil_r in E3. rewrite E3. change (negb (1 =? 1)) with false. cbv iota. rewrite E4. cbn [fst derr].
  unfold i32. rewrite !Z.mod_small by lia. do 2 f_equal; lia.
Qed.

(** ** I-Am-Router-To-Network *)
Lemma dec_router_2 : forall a b rest, 0 <= a < 65536 -> 0 <= b < 65536 -> exists n d,
  dec_NPDU (newDecoder (spec_iam_router (a :: b :: rest)))
  = ((n, netAddr a :: (if a =? b then [] else [netAddr b]), None), d)
  /\ n_netmsg n = true /\ n_msgtype n = 1.
Proof.
  intros a b rest Ha Hb. unfold newDecoder, spec_iam_router, dec_NPDU. cbn [app flat_map].
  rewrite !decode_u1_ok.
  change (checkMask 128 maskDest) with false. change (checkMask 128 maskSrc) with false.
  change (checkMask 128 maskNetMsg) with true. cbv iota. rewrite decode_u1_ok.
  change (128 <? 1) with false. change (1 =? ndpuNetworkIs) with false. change (1 =? ndpuIamRouterToNetwork) with true. cbv iota.
  change (octets 2 a ++ octets 2 b ++ flat_map (octets 2) rest) with (octets 2 a ++ (octets 2 b ++ flat_map (octets 2) rest)).
  rewrite decode_u_octets by (simpl; try congruence; lia).
  rewrite decode_u_octets by (simpl; try congruence; lia). cbn [derr].
  do 2 eexists. split; [destruct (a =? b); reflexivity|]. split; reflexivity.
Qed.
Lemma dec_router_short : forall nets, zlen nets < 2 -> Forall (fun n => 0 <= n < 65536) nets -> exists n l e d,
  dec_NPDU (newDecoder (spec_iam_router nets)) = ((n, l, Some e), d).
Proof.
  intros [|a [|b r]] Hl Hf; [| |unfold zlen in Hl; simpl in Hl; lia].
  - do 4 eexists. reflexivity.
  - inversion Hf; subst. unfold newDecoder, spec_iam_router, dec_NPDU. cbn [app flat_map].
    rewrite !decode_u1_ok.
    change (checkMask 128 maskDest) with false. change (checkMask 128 maskSrc) with false.
    change (checkMask 128 maskNetMsg) with true. cbv iota. rewrite decode_u1_ok.
    change (128 <? 1) with false. change (1 =? ndpuNetworkIs) with false. change (1 =? ndpuIamRouterToNetwork) with true. cbv iota.
    rewrite decode_u_octets by (simpl; try congruence; lia).
    do 4 eexists. reflexivity.
Qed.

(** ** Error PDU *)
Lemma enum1 : forall c, 0 <= c < 256 -> spec_app (VEnum c) = [145; c].
Proof.
  intros c Hc. cbn [spec_app]. unfold spec_unsigned.
  destruct (usize_cases c ltac:(lia)) as [[? E]|[[? E]|[[? E]|[? E]]]]; try lia; rewrite E.
  change (spec_tag 0 9 1) with [145]. change (Z.to_nat 1) with 1%nat. cbn [octets app]. change (256 ^ Z.of_nat 0) with 1.
  rewrite Z.div_1_r, Z.mod_small by lia. reflexivity.
Qed.
Lemma high_nibble : forall c, 0 <= c < 240 -> meta_isExtendedTagNumber c = false.
Proof.
  intros c Hc. pose proof (sweep1 240 (fun c => negb (meta_isExtendedTagNumber c)) eq_refl c ltac:(lia)) as E.
  cbv beta in E. destruct (meta_isExtendedTagNumber c); [discriminate|reflexivity].
Qed.
Lemma low_bits : forall c, 0 <= c < 256 -> meta_isExtendedValue c = (c mod 8 =? 5).
Proof.
  intros c Hc. pose proof (sweep1 256 (fun c => Bool.eqb (meta_isExtendedValue c) (c mod 8 =? 5)) eq_refl c ltac:(lia)) as E.
  apply eqb_prop in E. exact E.
Qed.
Lemma tnv_meta_last : forall k rest p, exists t v d,
  tagNumberAndValue (mkDec (k :: rest) p None) = ((t, k, v), d).
Proof.
  intros. unfold tagNumberAndValue, tagNumber. rewrite decode_u1_ok.
  destruct (meta_isExtendedTagNumber k).
  - destruct (decode_u 1 0 (mkDec rest (Some k) None)) as [t d]. destruct (dec_value k d) as [v d']. eauto.
  - destruct (dec_value k (mkDec rest (Some k) None)) as [v d']. eauto.
Qed.
Lemma dec_error_standard : forall inv svc c k p, 0 <= c < 240 -> 0 <= k < 256 -> exists d,
  dec_APDU (mkDec (spec_error inv svc c k) p None)
  = ((mkApdu 80 false false false 0 0 inv 0 0 svc 0 c (if c mod 8 =? 5 then k else 145) [], None), d).
Proof.
  intros inv svc c k p Hc Hk. unfold dec_APDU, spec_error. rewrite !enum1 by lia. cbn [app].
  rewrite decode_u1_ok. change (Z.land 240 80) with 80.
  cbn [Z.eqb Pos.eqb pduComplexAck pduSimpleAck pduUnconfirmed pduConfirmed pduSegmentAck pduError orb].
  change (checkMask 80 apduMaskSegmented) with false. change (checkMask 80 apduMaskMoreFollows) with false.
  change (checkMask 80 apduMaskSegmentedAccepted) with false.
  unfold dec_apduError. rewrite !decode_u1_ok.
  unfold tagNumber at 1. rewrite decode_u1_ok. change (meta_isExtendedTagNumber 145) with false. cbv iota.
  change (meta_isOpening 145) with false. cbv iota.
  unfold tagNumberAndValue at 1. unfold tagNumber. rewrite decode_u1_ok. rewrite high_nibble by lia.
  unfold dec_value. rewrite low_bits by lia.
  destruct (c mod 8 =? 5).
  - rewrite decode_u1_ok. cbn [Z.eqb Pos.eqb].
    destruct (tnv_meta_last k [] (Some 145)) as (t & v & d & E). rewrite E. eexists. reflexivity.
  - destruct (meta_isOpening c || meta_isClosing c);
    destruct (tnv_meta_last 145 [k] (Some c)) as (t & v & d & E); rewrite E; eexists; reflexivity.
Qed.
Lemma dec_error_bracketed : forall t inv svc c k rest p, 0 <= t < 256 -> 0 <= c < 65536 -> 0 <= k < 4294967296 -> exists d,
  dec_APDU (mkDec (spec_error_bracketed t inv svc c k ++ rest) p None)
  = ((mkApdu 80 false false false 0 0 inv 0 0 svc 0 c k [], None), d) /\ dbuf d = rest /\ derr d = None.
Proof.
  intros t inv svc c k rest p Ht Hc Hk. unfold dec_APDU, spec_error_bracketed. cbn [app].
  rewrite decode_u1_ok. change (Z.land 240 80) with 80.
  cbn [Z.eqb Pos.eqb pduComplexAck pduSimpleAck pduUnconfirmed pduConfirmed pduSegmentAck pduError orb].
  change (checkMask 80 apduMaskSegmented) with false. change (checkMask 80 apduMaskMoreFollows) with false.
  change (checkMask 80 apduMaskSegmentedAccepted) with false.
  unfold dec_apduError. rewrite !decode_u1_ok. cbn [spec_app]. rewrite <- !app_assoc.
  rewrite tagNumber_open by assumption.
  destruct (open_meta_facts t Ht) as (_ & _ & F1 & _ & _ & _ & F3 & _). rewrite F1.
  pose proof (usize_bound c ltac:(lia)). pose proof (usize_bound k ltac:(lia)).
  rewrite tag_round by lia. rewrite dec_unsigned_spec by lia.
  rewrite tag_round by lia. rewrite dec_unsigned_spec by lia.
  rewrite tagNumber_close by assumption.
  rewrite F3. cbn [negb]. unfold u16. rewrite Z.mod_small by lia.
  eexists. split; [reflexivity|]. split; reflexivity.
Qed.

(** ** crashes of the NPDU writer *)
Lemma setInfoMask_testbit : forall x k j, 0 <= k < 8 -> 0 <= j ->
  Z.testbit (setInfoMask x true (2 ^ k)) j = (Z.testbit x j || (j =? k)).
Proof.
  intros. unfold setInfoMask. rewrite Z.lor_spec, Z.pow2_bits_eqb by lia. f_equal. lia.
Qed.
Lemma npdu_meta_bits : forall n, 
  checkMask (npdu_meta n) maskDest = (present (n_dest n) || Z.testbit (n_prio n) 5)
  /\ checkMask (npdu_meta n) maskSrc = (present (n_src n) || Z.testbit (n_prio n) 3).
Proof.
  intros [v d s vd nm mt rp pr h]. change maskDest with (2 ^ 5). change maskSrc with (2 ^ 3).
  rewrite !checkMask_bit by lia. unfold npdu_meta. cbn [n_netmsg n_reply n_prio n_dest n_src].
  set (m0 := Z.lor _ pr).
  assert (B : forall j, j = 5 \/ j = 3 -> Z.testbit m0 j = Z.testbit pr j).
  { intros j Hj. unfold m0. rewrite Z.lor_spec. destruct nm, rp; destruct Hj; subst j; reflexivity. }
  set (m1 := match d with Some a => if negb (a_net a =? 0) then setInfoMask m0 true maskDest else m0 | None => m0 end).
  assert (B5 : Z.testbit m1 5 = (present d || Z.testbit pr 5)).
  { unfold m1. change maskDest with (2 ^ 5). destruct d as [a|]; cbn [present].
    - destruct (negb (a_net a =? 0)); [rewrite setInfoMask_testbit by lia; apply orb_true_r|rewrite B by auto; reflexivity].
    - rewrite B by auto. reflexivity. }
  assert (B3 : Z.testbit m1 3 = Z.testbit pr 3).
  { unfold m1. change maskDest with (2 ^ 5). destruct d as [a|].
    - destruct (negb (a_net a =? 0)); [rewrite setInfoMask_testbit by lia; rewrite B by auto; apply orb_false_r|apply B; auto].
    - apply B; auto. }
  change maskSrc with (2 ^ 3). destruct s as [a|]; cbn [present].
  - destruct (negb (a_net a =? 0)).
    + rewrite !setInfoMask_testbit by lia. rewrite B5, B3. cbn [Z.eqb Pos.eqb].
      rewrite orb_false_r, orb_true_r. split; reflexivity.
    + rewrite B5, B3. split; reflexivity.
  - rewrite B5, B3. split; reflexivity.
Qed.
Lemma npdu_panic_iff : forall n,
  enc_NPDU n newEncoder = RPanic <->
  (n_dest n = None /\ Z.testbit (n_prio n) 5 = true) \/ (n_src n = None /\ Z.testbit (n_prio n) 3 = true).
Proof.
  intros n. unfold enc_NPDU. destruct (npdu_meta_bits n) as [-> ->].
  destruct (n_dest n) as [d|] eqn:Ed, (n_src n) as [s|] eqn:Es; cbn [present].
  - destruct (negb (a_net d =? 0) || Z.testbit (n_prio n) 5), (negb (a_net s =? 0) || Z.testbit (n_prio n) 3); cbn [rbind];
      split; intros H; try discriminate; destruct H as [[H ?]|[H ?]]; discriminate.
  - destruct (negb (a_net d =? 0) || Z.testbit (n_prio n) 5), (Z.testbit (n_prio n) 3); cbn [rbind orb];
      split; intros H; try discriminate; try (destruct H as [[H ?]|[? H]]; discriminate); auto.
  - destruct (negb (a_net s =? 0) || Z.testbit (n_prio n) 3), (Z.testbit (n_prio n) 5); cbn [rbind orb];
      split; intros H; try discriminate; try (destruct H as [[? H]|[H ?]]; discriminate); auto.
  - destruct (Z.testbit (n_prio n) 3), (Z.testbit (n_prio n) 5); cbn [rbind orb];
      split; intros H; try discriminate; try (destruct H as [[? H]|[? H]]; discriminate); auto.
Qed.
(** message type 0x80: the vendor id is written but left unread *)
Lemma dec_npdu_80 : forall n rest, npdu_ok n -> n_netmsg n = true -> n_msgtype n = 128 -> exists d,
  dec_NPDU (newDecoder (spec_npdu n ++ rest))
  = ((mkNpdu (n_version n) (seen_addr (n_dest n)) (seen_addr (n_src n)) 0 true 128 (n_reply n) (n_prio n)
       (if present (n_dest n) then n_hop n else 0), [], None), d)
  /\ dbuf d = octets 2 (n_vendor n) ++ rest.
Proof.
  intros n rest Hok Hm Ht. unfold newDecoder.
  destruct Hok as (Hv & Hd & Hs & Hvd & Hmt & Hp & Hh). unfold dec_NPDU, spec_npdu.
  destruct (meta_bits (n_netmsg n) (n_reply n) (present (n_dest n)) (present (n_src n)) (n_prio n) Hp)
    as (M1 & M2 & M3 & M4 & M5 & Mb).
  set (m := _ + _ + n_prio n) in *. cbv zeta in *.
  cbn [app]. rewrite !decode_u1_ok. rewrite M1, M2, M3, M4, M5. rewrite <- !app_assoc.
  assert (ED : forall o r q, opt_addr_ok o -> exists q', (if present o then let '(a, d) := dec_Address (mkDec (spec_opt_addr o ++ r) q None) in (Some a, d)
        else (None, mkDec (spec_opt_addr o ++ r) q None)) = (seen_addr o, mkDec r q' None)).
  { intros o r q Ho. unfold spec_opt_addr, seen_addr. destruct o as [a|]; cbn [present].
    - destruct (negb (a_net a =? 0)); [|eexists; reflexivity].
      destruct (dec_addr_spec a r q Ho) as [q' E]. rewrite E. eexists; reflexivity.
    - eexists; reflexivity. }
  match goal with |- context [mkDec (spec_opt_addr (n_dest n) ++ ?r) ?q None] => destruct (ED (n_dest n) r q Hd) as [q1 E1] end.
  rewrite E1. clear E1.
  match goal with |- context [mkDec (spec_opt_addr (n_src n) ++ ?r) ?q None] => destruct (ED (n_src n) r q Hs) as [q2 E2] end.
  rewrite E2. clear E2 ED.
  assert (EH : forall r q, exists q', (if present (n_dest n) then decode_u 1 0 (mkDec ((if present (n_dest n) then [n_hop n] else []) ++ r) q None)
        else (0, mkDec ((if present (n_dest n) then [n_hop n] else []) ++ r) q None))
        = (if present (n_dest n) then n_hop n else 0, mkDec r q' None)).
  { intros r q. destruct (present (n_dest n)); cbn [app]; [rewrite decode_u1_ok|]; eexists; reflexivity. }
  match goal with |- context [mkDec ((if present (n_dest n) then _ else _) ++ ?r) ?q None] => destruct (EH r q) as [q3 E3] end.
  rewrite E3. clear E3 EH. rewrite Hm, Ht. cbn [app]. rewrite decode_u1_ok.
  change (128 <? 128) with false. change (128 =? ndpuNetworkIs) with false. change (128 =? ndpuIamRouterToNetwork) with false.
  change (128 <=? 128) with true. cbv iota. cbn [derr]. eexists. split; [reflexivity|]. reflexivity.
Qed.
