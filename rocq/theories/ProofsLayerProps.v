(** The statements of PropLayers.v, assembled from ProofsLayers.v. *)
From Coq Require Import Lia ZifyBool ZifyNat.
From Verif Require Import ModelClient SpecWire SpecLayers ProofsWire ProofsTag ProofsApp ProofsLayers.
Ltac Zify.zify_post_hook ::= Z.div_mod_to_equations.

Lemma bvlc_round : forall t f l payload, is_byte t -> is_byte f -> 0 <= l < 65536 -> exists d,
  enc_BVLC (mkBvlc t f l payload) newEncoder = mkEnc ([t; f] ++ octets 2 l ++ payload) None
  /\ dec_BVLC (newDecoder ([t; f] ++ octets 2 l ++ payload)) = (mkBvlc t f l [], d)
  /\ dbuf d = payload /\ derr d = None.
Proof.
  intros. unfold newEncoder, newDecoder. rewrite enc_bvlc_spec by assumption. cbn [app].
  rewrite dec_bvlc_spec by assumption. eexists. repeat split.
Qed.
Lemma send_func_byte : forall dest bt, (forall b, bt = Some b -> is_byte (sb_func b)) -> is_byte (send_func dest bt).
Proof.
  intros dest bt H. unfold send_func.
  assert (B : is_byte bfUnicast /\ is_byte bfBroadcast) by (unfold is_byte, bfUnicast, bfBroadcast; lia).
  destruct bt as [b|]; [destruct (sb_set b); [auto|]|];
    destruct (0 <? zlen (a_adr dest)); try tauto; destruct (_ || _); tauto.
Qed.
Lemma send_frame_spec : forall dest data bt, (forall b, bt = Some b -> is_byte (sb_func b)) ->
  zlen data <= 65531 -> send_frame dest data bt = spec_bvlc (send_func dest bt) data.
Proof.
  intros dest data bt Hb Hl. unfold send_frame, newEncoder. rewrite enc_bvlc_spec.
  - unfold spec_bvlc. cbn [app ebuf]. unfold u16, zlen in *. rewrite Z.mod_small by lia.
    rewrite (Z.add_comm 4). reflexivity.
  - unfold is_byte, bvlcTypeBacnetIP; lia.
  - apply send_func_byte; assumption.
Qed.
Lemma frame_length : forall dest data bt, (forall b, bt = Some b -> is_byte (sb_func b)) ->
  zlen data <= 65531 -> exists d,
  let f := send_frame dest data bt in
  f = spec_bvlc (send_func dest bt) data
  /\ dec_BVLC (newDecoder f) = (mkBvlc 129 (send_func dest bt) (zlen f) [], d)
  /\ dbuf d = data /\ derr d = None.
Proof.
  intros dest data bt Hb Hl. cbv zeta. rewrite send_frame_spec by assumption.
  unfold spec_bvlc, newDecoder. rewrite dec_bvlc_spec by (unfold zlen in *; lia).
  assert (E : zlen data + 4 = zlen (129 :: send_func dest bt :: octets 2 (zlen data + 4) ++ data))
    by (unfold zlen; cbn [length]; rewrite app_length, octets_length; lia).
  rewrite <- E. eexists. repeat split.
Qed.

Lemma npdu_round : forall n rest, npdu_ok n ->
  (n_netmsg n = true -> n_msgtype n <> 128 /\ n_msgtype n <> 1 /\ n_msgtype n <> 19) -> exists d,
  enc_NPDU n newEncoder = ROk (mkEnc (spec_npdu n) None)
  /\ dec_NPDU (newDecoder (spec_npdu n ++ rest)) = ((npdu_seen n, [], None), d)
  /\ dbuf d = rest /\ derr d = None.
Proof.
  intros n rest H H1. unfold newEncoder, newDecoder. rewrite enc_npdu_spec by assumption.
  destruct (dec_npdu_spec n rest None H H1) as [p E]. rewrite E. eexists. repeat split.
Qed.
Lemma npdu_round_80 : forall n rest, npdu_ok n -> n_netmsg n = true -> n_msgtype n = 128 -> exists m d,
  enc_NPDU n newEncoder = ROk (mkEnc (spec_npdu n) None)
  /\ dec_NPDU (newDecoder (spec_npdu n ++ rest)) = ((m, [], None), d)
  /\ n_vendor m = 0 /\ dbuf d = octets 2 (n_vendor n) ++ rest.
Proof.
  intros n rest H H1 H2. unfold newEncoder. rewrite enc_npdu_spec by assumption.
  destruct (dec_npdu_80 n rest H H1 H2) as (d & E & Ed). rewrite E. do 2 eexists. repeat split. exact Ed.
Qed.

Lemma confirmed_round : forall a w, p_type a = pduConfirmed ->
  is_byte (p_invoke a) -> is_byte (p_seq a) -> is_byte (p_window a) -> is_byte (p_service a) ->
  In (p_maxapdu a) apdu_sizes -> exists bs r d,
  enc_APDU a newEncoder = (mkEnc bs None, None)
  /\ dec_APDU (newDecoder (bs ++ w)) = ((r, None), d)
  /\ p_type r = p_type a /\ p_seg r = p_seg a /\ p_more r = p_more a /\ p_segacc r = p_segacc a
  /\ p_invoke r = p_invoke a /\ p_service r = p_service a /\ p_maxapdu r = p_maxapdu a
  /\ (1 <= p_maxsegs a -> p_maxsegs r <= p_maxsegs a)
  /\ (p_seg a = true -> p_seq r = p_seq a /\ p_window r = p_window a)
  /\ p_raw r = w.
Proof.
  intros a w Ht Hi Hq Hw Hs Hin. unfold newEncoder. rewrite enc_apdu_confirmed_spec by assumption.
  set (sz := encodeMaxSegsMaxApdu (p_maxsegs a) (p_maxapdu a)).
  destruct (dec_apdu_confirmed_spec (p_seg a) (p_more a) (p_segacc a) sz (p_invoke a) (p_seq a) (p_window a) (p_service a) w None) as [p E].
  unfold newDecoder. cbn [app] in *. do 3 eexists. split; [reflexivity|]. split; [exact E|]. cbn.
  destruct (sizes_round (p_maxsegs a) (p_maxapdu a)) as (S1 & S2 & _). fold sz in S1, S2.
  rewrite S1, size_up_std by assumption. rewrite Ht.
  repeat (split; [first [reflexivity | assumption | intro E2; rewrite E2; split; reflexivity]|]). reflexivity.
Qed.
Lemma unconfirmed_round : forall svc w, is_byte svc -> exists bs r d,
  enc_APDU (mkApdu pduUnconfirmed false false false 0 0 0 0 0 0 svc 0 0 []) newEncoder = (mkEnc bs None, None)
  /\ dec_APDU (newDecoder (bs ++ w)) = ((r, None), d)
  /\ p_type r = pduUnconfirmed /\ p_uservice r = svc /\ p_raw r = w.
Proof.
  intros. unfold newEncoder. rewrite enc_apdu_unconfirmed_spec by assumption.
  destruct (dec_apdu_unconfirmed_spec svc w None) as [p E]. do 3 eexists. split; [reflexivity|].
  split; [exact E|]. repeat split.
Qed.
Lemma complex_round : forall inv svc w, is_byte inv -> is_byte svc -> exists bs r d,
  enc_APDU (mkApdu pduComplexAck false false false 0 0 inv 0 0 svc 0 0 0 []) newEncoder = (mkEnc bs None, None)
  /\ dec_APDU (newDecoder (bs ++ w)) = ((r, None), d)
  /\ p_type r = pduComplexAck /\ p_seg r = false /\ p_invoke r = inv /\ p_service r = svc
  /\ dbuf d = w /\ derr d = None.
Proof.
  intros. unfold newEncoder. rewrite enc_apdu_complex_spec by assumption.
  pose proof (dec_apdu_ack_spec 48 inv svc w None ltac:(auto)) as E. do 3 eexists. split; [reflexivity|].
  split; [exact E|]. repeat split.
Qed.

Lemma sizes_standard : forall segs size, In size apdu_sizes ->
  let octet := encodeMaxSegsMaxApdu segs size in
  decodeMaxApdu octet = size
  /\ (1 <= segs -> decodeMaxSegs octet <= segs)
  /\ (segs <= 0 -> octet / 16 = 0).
Proof.
  intros segs size Hin. cbv zeta. destruct (sizes_round segs size) as (E1 & E2 & _).
  rewrite E1, size_up_std by assumption. repeat split; auto.
  intro Hs. unfold encodeMaxSegsMaxApdu. replace (segs =? 64) with false by lia. replace (64 <? segs) with false by lia.
  cbn [segs_loop]. change (Z.shiftl 1 (0 + 1)) with 2. replace (segs <? 2) with true by lia. cbv zeta.
  simpl in Hin. destruct Hin as [<-|[<-|[<-|[<-|[<-|[<-|[]]]]]]]; reflexivity.
Qed.
Lemma size_up_le_iff : forall segs a, decodeMaxApdu (encodeMaxSegsMaxApdu segs a) <= a
  <-> In a apdu_sizes \/ 1476 < a.
Proof.
  intros segs a. destruct (sizes_round segs a) as (E & _). rewrite E. unfold size_up, apdu_sizes. simpl In.
  destruct (a <=? 50) eqn:?; [lia|]. destruct (a <=? 128) eqn:?; [lia|]. destruct (a <=? 206) eqn:?; [lia|].
  destruct (a <=? 480) eqn:?; [lia|]. destruct (a <=? 1024) eqn:?; [lia|]. destruct (a <=? 1476) eqn:?; lia.
Qed.

Lemma iam_round : forall i, iam_ok i -> exists w r d d',
  enc_IAm i newEncoder = ROk (mkEnc (spec_iam i) None, None)
  /\ dec_APDU (newDecoder (spec_iam i)) = ((r, None), d)
  /\ p_type r = pduUnconfirmed /\ p_uservice r = 0 /\ p_raw r = w
  /\ dec_IAm (newDecoder w) = Val (mkIam (i_id i) (i_maxapdu i) (i_seg i) (i_vendor i) addr0, None) d'
  /\ dbuf d' = [].
Proof.
  intros i Hi. unfold newEncoder, newDecoder. rewrite enc_iam_spec by assumption. unfold spec_iam.
  edestruct dec_apdu_unconfirmed_spec as [p E]. rewrite E. clear E.
  destruct (dec_iam_spec i [] None Hi) as [p' E']. rewrite app_nil_r in E'.
  do 4 eexists. split; [reflexivity|]. split; [reflexivity|]. split; [reflexivity|]. split; [reflexivity|].
  split; [reflexivity|]. cbn [p_raw]. rewrite E'. split; reflexivity.
Qed.
Lemma whois_round : forall low high, exists w r d d',
  enc_WhoIs low high newEncoder = mkEnc (spec_whois (whois_limits low high)) None
  /\ dec_APDU (newDecoder (spec_whois (whois_limits low high))) = ((r, None), d)
  /\ p_type r = pduUnconfirmed /\ p_uservice r = 8 /\ p_raw r = w
  /\ dec_WhoIs (newDecoder w) =
     ((if (0 <=? low) && (low <? 4194303) && (0 <=? high) && (high <? 4194303) then (low, high, None) else (-1, -1, None)), d').
Proof.
  intros low high. unfold newEncoder, newDecoder. rewrite enc_whois_spec. unfold spec_whois.
  edestruct dec_apdu_unconfirmed_spec as [p E]. rewrite E. clear E.
  destruct (dec_WhoIs (mkDec (match whois_limits low high with Some (lo, hi) => spec_ctx_unsigned 0 lo ++ spec_ctx_unsigned 1 hi | None => [] end) None None)) as [r d'] eqn:E.
  do 4 eexists. split; [reflexivity|]. split; [reflexivity|]. split; [reflexivity|]. split; [reflexivity|].
  split; [reflexivity|]. cbn [p_raw]. rewrite E. f_equal.
  pose proof (dec_whois_spec (whois_limits low high) None) as W. rewrite E in W. cbn [fst] in W.
  unfold whois_limits in W.
  destruct ((0 <=? low) && (0 <=? high) && (low <? 4194303) && (high <? 4194303)) eqn:C.
  - rewrite W by lia. replace (_ && _) with true by lia. reflexivity.
  - rewrite W by exact I. replace (_ && _) with false by lia. reflexivity.
Qed.

Lemma router_exact : forall nets, Forall (fun n => 0 <= n < 65536) nets ->
  match nets with
  | a :: b :: _ => exists n l d, dec_NPDU (newDecoder (spec_iam_router nets)) = ((n, l, None), d)
                   /\ nets_of l = (if a =? b then [a] else [a; b])
  | _ => exists n l e d, dec_NPDU (newDecoder (spec_iam_router nets)) = ((n, l, Some e), d)
  end.
Proof.
  intros [|a [|b r]] Hf.
  - apply (dec_router_short []); auto. reflexivity.
  - apply (dec_router_short [a]); auto. reflexivity.
  - inversion Hf as [|? ? Ha Hf']; inversion Hf' as [|? ? Hb _]; subst.
    destruct (dec_router_2 a b r Ha Hb) as (n & d & E & _). rewrite E. do 3 eexists. split; [reflexivity|].
    destruct (a =? b); reflexivity.
Qed.

Lemma error_standard : forall inv svc c k, 0 <= c < 240 -> 0 <= k < 256 -> exists r d,
  dec_APDU (newDecoder (spec_error inv svc c k)) = ((r, None), d)
  /\ p_type r = pduError /\ p_invoke r = inv
  /\ p_eclass r = c /\ p_ecode r = (if c mod 8 =? 5 then k else 145).
Proof.
  intros. destruct (dec_error_standard inv svc c k None H H0) as [d E]. unfold newDecoder. rewrite E.
  do 2 eexists. repeat split.
Qed.
Lemma error_bracketed : forall t inv svc c k rest, 0 <= t < 256 -> 0 <= c < 65536 -> 0 <= k < 4294967296 -> exists r d,
  dec_APDU (newDecoder (spec_error_bracketed t inv svc c k ++ rest)) = ((r, None), d)
  /\ p_type r = pduError /\ p_invoke r = inv /\ p_eclass r = c /\ p_ecode r = k.
Proof.
  intros. destruct (dec_error_bracketed t inv svc c k rest None H H0 H1) as (d & E & _). unfold newDecoder. rewrite E.
  do 2 eexists. repeat split.
Qed.

(** ** C02, with the header *)
Lemma tagged_round : forall num v rest, 0 <= num < 256 -> 0 <= v < 2 ^ 32 ->
  exists n meta d1 d2, (1 <= n <= 4)%nat /\ v < 256 ^ Z.of_nat n /\ (n = 1%nat \/ 256 ^ (Z.of_nat n - 1) <= v)
  /\ contextUnsigned num v newEncoder = mkEnc (spec_tag 1 num (Z.of_nat n) ++ octets n v) None
  /\ contextEnumerated num v newEncoder = mkEnc (spec_tag 1 num (Z.of_nat n) ++ octets n v) None
  /\ tagNumberAndValue (newDecoder ((spec_tag 1 num (Z.of_nat n) ++ octets n v) ++ rest)) = ((num, meta, Z.of_nat n), d1)
  /\ dec_unsigned (Z.of_nat n) d1 = (v, d2) /\ dbuf d2 = rest /\ derr d2 = None.
Proof.
  intros num v rest Hn Hv. pose proof (usize_bound v Hv). pose proof (usize_fits v Hv) as Hf.
  destruct (dec_ctx_unsigned_spec num v rest None Hn Hv) as (meta & p1 & E1 & E2).
  exists (Z.to_nat (usize v)), meta. do 2 eexists. rewrite Z2Nat.id by lia.
  split; [lia|]. split; [lia|]. split.
  { destruct (usize_cases v Hv) as [[? ->]|[[? ->]|[[? ->]|[? ->]]]]; simpl; lia. }
  unfold contextEnumerated, newEncoder, newDecoder. rewrite enc_ctx_unsigned_spec by assumption.
  split; [reflexivity|]. split; [reflexivity|]. split; [exact E1|]. split; [exact E2|]. split; reflexivity.
Qed.
