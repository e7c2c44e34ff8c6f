(** The receive path. *)
From Coq Require Import Lia ZifyBool ZifyNat.
From Verif Require Import ModelClient SpecWire SpecCodec SpecLayers SpecServices SpecObs SpecClient
  ProofsWire ProofsTag ProofsApp ProofsBits ProofsTrunc ProofsCodec ProofsLayers ProofsLayerProps ProofsServices ProofsMulti ProofsTerm ProofsServiceProps.
Ltac Zify.zify_post_hook ::= Z.div_mod_to_equations.

Lemma land240 : forall b, is_byte b -> Z.land 240 b = b / 16 * 16.
Proof.
  intros b Hb. pose proof (sweep1 256 (fun b => Z.land 240 b =? b / 16 * 16) ltac:(vm_compute; reflexivity) b Hb) as E.
  cbv beta in E. lia.
Qed.

(** ** reading consumes the buffer from the front *)
Definition suffix (d' d : dec) : Prop := exists pre, dbuf d = pre ++ dbuf d'.
Lemma suffix_refl : forall d, suffix d d. Proof. intro d. exists []. reflexivity. Qed.
Lemma suffix_trans : forall a b c, suffix b a -> suffix c b -> suffix c a.
Proof. intros a b c [p E] [q F]. exists (p ++ q). rewrite E, F, app_assoc. reflexivity. Qed.
Lemma decode_n_suffix : forall n d, suffix (snd (decode_n n d)) d.
Proof.
  intros n [b p e]. unfold decode_n. cbn [derr dbuf]. destruct e; [apply suffix_refl|].
  destruct n as [|n]; [apply suffix_refl|]. destruct (S n <=? length b)%nat eqn:E.
  - exists (firstn (S n) b). cbn [snd dbuf]. symmetry. apply firstn_skipn.
  - exists b. destruct b; cbn [snd dbuf]; [|rewrite app_nil_r]; reflexivity.
Qed.
Lemma decode_u_suffix : forall n old d, suffix (snd (decode_u n old d)) d.
Proof. intros. unfold decode_u. pose proof (decode_n_suffix n d). destruct (decode_n n d). exact H. Qed.
Ltac suf1 := match goal with
  | |- context [decode_u ?n ?o ?d] => let H := fresh "S" in pose proof (decode_u_suffix n o d) as H;
      destruct (decode_u n o d) as [? ?]; cbn [snd] in H
  | |- context [decode_n ?n ?d] => let H := fresh "S" in pose proof (decode_n_suffix n d) as H;
      destruct (decode_n n d) as [? ?]; cbn [snd] in H
  end.
Ltac sufs := cbn [snd]; repeat match goal with
  | |- suffix ?a ?a => apply suffix_refl
  | H : suffix ?b ?a |- suffix ?c ?a => first [exact H | eapply suffix_trans; [exact H|]; clear H]
  end.
Lemma dec_bvlc_suffix : forall d, suffix (snd (dec_BVLC d)) d.
Proof. intro d. unfold dec_BVLC. do 4 suf1. sufs. Qed.
Lemma dec_address_suffix : forall d, suffix (snd (dec_Address d)) d.
Proof. intro d. unfold dec_Address. do 3 suf1. sufs. Qed.
Lemma dec_npdu_suffix : forall d, suffix (snd (dec_NPDU d)) d.
Proof.
  intro d. unfold dec_NPDU. do 2 suf1.
  match goal with |- context [if checkMask ?m maskDest then let '(a, d) := dec_Address ?x in (Some a, d) else (None, ?x)] =>
    assert (A : suffix (snd (if checkMask m maskDest then let '(a, d) := dec_Address x in (Some a, d) else (None, x))) x);
    [destruct (checkMask m maskDest); [pose proof (dec_address_suffix x); destruct (dec_Address x); assumption|apply suffix_refl]|];
    destruct (if checkMask m maskDest then let '(a, d) := dec_Address x in (Some a, d) else (None, x)) as [dst da]; cbn [snd] in A end.
  match goal with |- context [if checkMask ?m maskSrc then let '(a, d) := dec_Address ?x in (Some a, d) else (None, ?x)] =>
    assert (B : suffix (snd (if checkMask m maskSrc then let '(a, d) := dec_Address x in (Some a, d) else (None, x))) x);
    [destruct (checkMask m maskSrc); [pose proof (dec_address_suffix x); destruct (dec_Address x); assumption|apply suffix_refl]|];
    destruct (if checkMask m maskSrc then let '(a, d) := dec_Address x in (Some a, d) else (None, x)) as [sr db]; cbn [snd] in B end.
  match goal with |- context [if checkMask ?m maskDest then decode_u 1 0 ?x else (0, ?x)] =>
    assert (C : suffix (snd (if checkMask m maskDest then decode_u 1 0 x else (0, x))) x);
    [destruct (checkMask m maskDest); [apply decode_u_suffix|apply suffix_refl]|];
    destruct (if checkMask m maskDest then decode_u 1 0 x else (0, x)) as [hop dc]; cbn [snd] in C end.
  destruct (checkMask _ maskNetMsg); [|sufs].
  suf1.
  match goal with |- context [if 128 <? ?m then decode_u 2 0 ?x else (0, ?x)] =>
    assert (D : suffix (snd (if 128 <? m then decode_u 2 0 x else (0, x))) x);
    [destruct (128 <? m); [apply decode_u_suffix|apply suffix_refl]|];
    destruct (if 128 <? m then decode_u 2 0 x else (0, x)) as [vendor dd]; cbn [snd] in D end.
  match goal with |- context [if ?m =? ndpuNetworkIs then let '(n, d) := decode_u 2 0 ?x in (Some (netAddr n), d) else (?s, ?x)] =>
    assert (E : suffix (snd (if m =? ndpuNetworkIs then let '(n, d) := decode_u 2 0 x in (Some (netAddr n), d) else (s, x))) x);
    [destruct (m =? ndpuNetworkIs); [pose proof (decode_u_suffix 2 0 x); destruct (decode_u 2 0 x); assumption|apply suffix_refl]|];
    destruct (if m =? ndpuNetworkIs then let '(n, d) := decode_u 2 0 x in (Some (netAddr n), d) else (s, x)) as [sr2 de]; cbn [snd] in E end.
  destruct (_ =? ndpuIamRouterToNetwork); [do 2 suf1|]; sufs.
Qed.

Lemma is_bytes_app : forall a b, is_bytes (a ++ b) <-> is_bytes a /\ is_bytes b.
Proof. intros. apply Forall_app. Qed.

(** ** what the APDU handler does, by PDU type *)
Lemma u1_known : forall b p, decode_u 1 0 (mkDec b p None)
  = match b with x :: r => (x, mkDec r (Some x) None) | [] => (0, mkDec [] None (Some EEOF)) end.
Proof. intros [|x r] p; [reflexivity|apply decode_u1_ok]. Qed.

Definition has_iam (x : list Z) (raw : list Z) : Prop := exists t, x = t :: 0 :: raw /\ t / 16 = 1.

Lemma iam_fuel : forall d, dec_IAm d <> Fuel.
Proof.
  intro d. unfold dec_IAm. pose proof (dec_AppData_fuel d). destruct (dec_AppData d) as [[v [e|]] d1| |]; cbn [obind]; try discriminate; try congruence.
  pose proof (dec_AppData_fuel d1). destruct (dec_AppData d1) as [r1 d2| |]; cbn [obind]; try discriminate; try congruence.
  pose proof (dec_AppData_fuel d2). destruct (dec_AppData d2) as [r2 d3| |]; cbn [obind]; try discriminate; try congruence.
  pose proof (dec_AppData_fuel d3). destruct (dec_AppData d3) as [r3 d4| |]; cbn [obind]; try discriminate; try congruence.
Qed.
Lemma iam_addr0 : forall d i d', dec_IAm d = Val (i, None) d' -> i = mkIam (i_id i) (i_maxapdu i) (i_seg i) (i_vendor i) addr0.
Proof.
  intros d i d' H. unfold dec_IAm in H. destruct (dec_AppData d) as [[v [e|]] d1| |]; cbn [obind] in H; try discriminate.
  destruct (dec_AppData d1) as [r1 d2| |]; cbn [obind] in H; try discriminate.
  destruct (dec_AppData d2) as [r2 d3| |]; cbn [obind] in H; try discriminate.
  destruct (dec_AppData d3) as [r3 d4| |]; cbn [obind] in H; try discriminate.
  assert (E : i = mkIam (match v with VOid o => o | _ => mkOid 0 0 end)
               (match fst r1 with VUint m => m | _ => 0 end)
               (match fst r2 with VUint m => m | _ => 0 end)
               (match fst r3 with VUint m => m | _ => 0 end) addr0) by congruence.
  rewrite E. reflexivity.
Qed.

(** the header of an APDU by type *)
Lemma dec_apdu_type : forall t r p, is_byte t -> forall a err d, dec_APDU (mkDec (t :: r) p None) = ((a, err), d) ->
  p_type a = t / 16 * 16 /\ p_seg a = checkMask t apduMaskSegmented.
Proof.
  intros t r p Ht a err d H. unfold dec_APDU in H. rewrite decode_u1_ok in H. rewrite (land240 t Ht) in H.
  destruct (_ || _).
  { destruct (decode_u 1 0 _) as [i d1] in H. destruct (decode_u 1 0 d1) as [s d2] in H. inversion H. split; reflexivity. }
  destruct (_ =? pduUnconfirmed).
  { destruct (decode_u 1 0 _) as [i d1] in H. destruct (decode_n _ d1) as [s d2] in H. inversion H. split; reflexivity. }
  destruct (_ =? pduConfirmed).
  { destruct (decode_u 1 0 _) as [i d1] in H. destruct (decode_u 1 0 d1) as [s d2] in H.
    destruct (if checkMask t apduMaskSegmented then decode_u 1 0 d2 else (0, d2)) as [q d3] in H.
    destruct (if checkMask t apduMaskSegmented then decode_u 1 0 d3 else (0, d3)) as [q4 d4] in H.
    destruct (decode_u 1 0 d4) as [q5 d5] in H.
    destruct (0 <? length (dbuf d5))%nat in H; [destruct (decode_n _ d5) as [q6 d6] in H|]; inversion H; split; reflexivity. }
  destruct (_ =? pduSegmentAck); [inversion H; split; reflexivity|].
  destruct (_ =? pduError).
  { unfold dec_apduError in H. cbn [p_type p_seg p_more p_segacc] in H.
    destruct (decode_u 1 0 _) as [i d1] in H. destruct (decode_u 1 0 d1) as [s d2] in H.
    destruct (tagNumber d2) as [[? m] d3] in H. destruct (meta_isOpening m).
    - destruct (tagNumberAndValue d3) as [[[? ?] v4] d4] in H. destruct (dec_unsigned v4 d4) as [c d5] in H.
      destruct (tagNumberAndValue d5) as [[[? ?] v6] d6] in H. destruct (dec_unsigned v6 d6) as [k d7] in H.
      destruct (tagNumber d7) as [[? m8] d8] in H. destruct (negb (meta_isClosing m8)); inversion H; split; reflexivity.
    - destruct (tagNumberAndValue d3) as [[[? c] ?] d4] in H. destruct (tagNumberAndValue d4) as [[[? k] ?] d5] in H. inversion H; split; reflexivity. }
  destruct (_ =? pduReject); [inversion H; split; reflexivity|]. destruct (_ =? pduAbort); inversion H; split; reflexivity.
Qed.
Lemma dec_apdu_empty : forall p, exists a d, dec_APDU (mkDec [] p None) = ((a, Some EEOF), d).
Proof. intro p. do 2 eexists. reflexivity. Qed.
Lemma dec_apdu_ack : forall t r p a d, is_byte t -> t / 16 = 2 \/ t / 16 = 3 -> dec_APDU (mkDec (t :: r) p None) = ((a, None), d) ->
  exists i s w, r = i :: s :: w /\ p_invoke a = i.
Proof.
  intros t r p a d Ht Hty H. unfold dec_APDU in H. rewrite decode_u1_ok in H. rewrite (land240 t Ht) in H.
  replace ((t / 16 * 16 =? pduComplexAck) || (t / 16 * 16 =? pduSimpleAck)) with true in H.
  2:{ unfold pduComplexAck, pduSimpleAck. destruct Hty as [->| ->]; reflexivity. }
  rewrite u1_known in H. destruct r as [|i r]; [discriminate H|]. rewrite u1_known in H. destruct r as [|s r]; [discriminate H|].
  do 3 eexists. split; [reflexivity|]. inversion H. reflexivity.
Qed.
Lemma dec_apdu_conf : forall t r p a d, is_byte t -> t / 16 = 0 -> dec_APDU (mkDec (t :: r) p None) = ((a, None), d) ->
  exists z i s w, r = z :: i :: s :: w /\ p_invoke a = i.
Proof.
  intros t r p a d Ht Hty H. unfold dec_APDU in H. rewrite decode_u1_ok in H. rewrite (land240 t Ht), Hty in H.
  cbn [Z.mul Z.eqb pduComplexAck pduSimpleAck orb pduUnconfirmed pduConfirmed] in H.
  rewrite u1_known in H. destruct r as [|z r].
  { destruct (checkMask t apduMaskSegmented); discriminate H. }
  rewrite u1_known in H. destruct r as [|i r].
  { destruct (checkMask t apduMaskSegmented); discriminate H. }
  assert (G : exists s w, r = s :: w).
  { destruct r as [|s w]; [|eauto]. exfalso. destruct (checkMask t apduMaskSegmented); discriminate H. }
  destruct G as (s & w & ->). do 4 eexists. split; [reflexivity|].
  destruct (if checkMask t apduMaskSegmented then _ else _) as [q d3] in H.
  destruct (if checkMask t apduMaskSegmented then _ else _) as [q4 d4] in H.
  destruct (decode_u 1 0 d4) as [q5 d5] in H.
  destruct (0 <? length (dbuf d5))%nat in H; [destruct (decode_n _ d5) as [q6 d6] in H|]; inversion H; reflexivity.
Qed.
Lemma dec_apdu_unconf : forall t r p a d, is_byte t -> t / 16 = 1 -> dec_APDU (mkDec (t :: r) p None) = ((a, None), d) ->
  exists s w, r = s :: w /\ p_uservice a = s /\ p_raw a = w.
Proof.
  intros t r p a d Ht Hty H. unfold dec_APDU in H. rewrite decode_u1_ok in H. rewrite (land240 t Ht), Hty in H.
  cbn [Z.mul Z.eqb Pos.mul Pos.eqb pduComplexAck pduSimpleAck orb pduUnconfirmed pduConfirmed] in H.
  rewrite u1_known in H. destruct r as [|s r]; [discriminate H|]. cbn [dbuf] in H. rewrite decode_all in H.
  do 2 eexists. split; [reflexivity|]. inversion H. split; reflexivity.
Qed.
Lemma dec_apdu_err : forall t r p a err d, is_byte t -> t / 16 = 5 -> dec_APDU (mkDec (t :: r) p None) = ((a, err), d) ->
  p_invoke a = nth 0 r 0.
Proof.
  intros t r p a err d Ht Hty H. unfold dec_APDU in H. rewrite decode_u1_ok in H. rewrite (land240 t Ht), Hty in H.
  cbn [Z.mul Z.eqb Pos.mul Pos.eqb pduComplexAck pduSimpleAck orb pduUnconfirmed pduConfirmed pduSegmentAck pduError] in H.
  unfold dec_apduError in H. cbn [p_type p_seg p_more p_segacc] in H.
  rewrite u1_known in H.
  assert (E : exists d1, match r with x :: r => (x, mkDec r (Some x) None) | [] => (0, mkDec [] None (Some EEOF)) end = (nth 0 r 0, d1)).
  { destruct r; eexists; reflexivity. }
  destruct E as [d1 E]. rewrite E in H. destruct (decode_u 1 0 d1) as [s d2] in H.
  destruct (tagNumber d2) as [[? m] d3] in H. destruct (meta_isOpening m).
  - destruct (tagNumberAndValue d3) as [[[? ?] v4] d4] in H. destruct (dec_unsigned v4 d4) as [c d5] in H.
    destruct (tagNumberAndValue d5) as [[[? ?] v6] d6] in H. destruct (dec_unsigned v6 d6) as [k d7] in H.
    destruct (tagNumber d7) as [[? m8] d8] in H. destruct (negb (meta_isClosing m8)); inversion H; reflexivity.
  - destruct (tagNumberAndValue d3) as [[[? c] ?] d4] in H. destruct (tagNumberAndValue d4) as [[[? k] ?] d5] in H. inversion H; reflexivity.
Qed.

Lemma dec_apdu_fresh : forall t r p, dec_APDU (mkDec (t :: r) p None) = dec_APDU (newDecoder (t :: r)).
Proof. intros t r p. unfold dec_APDU, newDecoder. rewrite !decode_u1_ok. reflexivity. Qed.
(** only Error PDUs set class and code *)
Lemma dec_apdu_noerr : forall t r p a err d, is_byte t -> t / 16 = 0 \/ t / 16 = 2 \/ t / 16 = 3 -> dec_APDU (mkDec (t :: r) p None) = ((a, err), d) ->
  p_eclass a = 0 /\ p_ecode a = 0.
Proof.
  intros t r p a err d Ht Hty H. unfold dec_APDU in H. rewrite decode_u1_ok in H. rewrite (land240 t Ht) in H.
  destruct Hty as [T|T].
  - rewrite T in H. cbn [Z.mul Z.eqb pduComplexAck pduSimpleAck orb pduUnconfirmed pduConfirmed] in H.
    destruct (decode_u 1 0 _) as [i d1] in H. destruct (decode_u 1 0 d1) as [s d2] in H.
    destruct (if checkMask t apduMaskSegmented then decode_u 1 0 d2 else (0, d2)) as [q d3] in H.
    destruct (if checkMask t apduMaskSegmented then decode_u 1 0 d3 else (0, d3)) as [q4 d4] in H.
    destruct (decode_u 1 0 d4) as [q5 d5] in H.
    destruct (0 <? length (dbuf d5))%nat in H; [destruct (decode_n _ d5) as [q6 d6] in H|]; inversion H; split; reflexivity.
  - replace ((t / 16 * 16 =? pduComplexAck) || (t / 16 * 16 =? pduSimpleAck)) with true in H.
    2:{ unfold pduComplexAck, pduSimpleAck. destruct T as [->| ->]; reflexivity. }
    destruct (decode_u 1 0 _) as [i d1] in H. destruct (decode_u 1 0 d1) as [s d2] in H. inversion H; split; reflexivity.
Qed.
Lemma dec_apdu_checks : forall t r p a d, is_byte t -> t / 16 = 0 \/ t / 16 = 2 \/ t / 16 = 3 -> dec_APDU (mkDec (t :: r) p None) = ((a, None), d) ->
  fst (check_apdu (newDecoder (t :: r))) = None.
Proof.
  intros t r p a d Ht Hty H. destruct (dec_apdu_noerr _ _ _ _ _ _ Ht Hty H) as [C K]. rewrite dec_apdu_fresh in H.
  unfold check_apdu. rewrite H, C, K. reflexivity.
Qed.

Definition apdu_effect (src : address) (n : npdu) (x : list Z) (eff : list effect) : Prop :=
  eff = [] \/
  (exists id, eff = [EDeliver id (PBytes x)] /\ (pdu_type x = 0 \/ pdu_type x = 2 \/ pdu_type x = 3) /\ id = invoke_of x
     /\ (if pdu_type x =? 0 then 4 <= zlen x else 3 <= zlen x) /\ fst (check_apdu (newDecoder x)) = None) \/
  (exists id c k, eff = [EDeliver id (PErr c k)] /\ pdu_type x = 5 /\ id = invoke_of x) \/
  (exists i raw d, eff = [EPubIAm (oid_inst (i_id i)) i] /\ has_iam x raw
     /\ dec_IAm (newDecoder raw) = Val (mkIam (i_id i) (i_maxapdu i) (i_seg i) (i_vendor i) addr0, None) d
     /\ i_addr i = iam_addr src (n_src n)).
Lemma apdu_cases : forall known src n x p, is_bytes x ->
  let '((eff, pan), early) := handle_apdu known src n (mkDec x p None) in
  apdu_effect src n x eff
  /\ (pan = true -> early = true /\ exists raw, has_iam x raw /\ dec_IAm (newDecoder raw) = Panic).
Proof.
  intros known src n x p Hx. unfold handle_apdu. cbn [dbuf].
  destruct x as [|t r].
  { destruct (dec_apdu_empty p) as (a & d & E). rewrite E. split; [left; reflexivity|discriminate]. }
  assert (Ht : is_byte t) by (inversion Hx; assumption).
  destruct (dec_APDU (mkDec (t :: r) p None)) as [[a err] d] eqn:E.
  destruct err as [err|]; [split; [left; reflexivity|discriminate]|].
  destruct (dec_apdu_type t r p Ht a None d E) as [Ety _]. rewrite Ety.
  assert (Hr : 0 <= t / 16 < 16) by (unfold is_byte in Ht; lia).
  destruct (t / 16 * 16 =? pduUnconfirmed) eqn:E1.
  { apply Z.eqb_eq in E1. unfold pduUnconfirmed in E1. assert (T1 : t / 16 = 1) by lia.
    destruct (dec_apdu_unconf t r p a d Ht T1 E) as (s & w & -> & Es & Ew). rewrite Es, Ew. clear Es Ew E.
    destruct (s =? usvcIAm) eqn:E2; [|split; [left; reflexivity|discriminate]].
    apply Z.eqb_eq in E2. unfold usvcIAm in E2. subst s.
    assert (HI : has_iam (t :: 0 :: w) w) by (exists t; auto).
    destruct (dec_IAm (newDecoder w)) as [[i [e|]] d'| |] eqn:E3.
    - split; [left; reflexivity|discriminate].
    - split; [|discriminate]. right. right. right. do 3 eexists. split; [reflexivity|]. split; [exact HI|]. cbn [i_id i_maxapdu i_seg i_vendor i_addr].
      split; [|reflexivity]. rewrite E3. rewrite (iam_addr0 _ _ _ E3) at 1. reflexivity.
    - split; [left; reflexivity|]. intros _. split; [reflexivity|]. eexists. split; [exact HI|exact E3].
    - exfalso. exact (iam_fuel _ E3). }
  destruct (_ || _ || _) eqn:E4.
  { assert (T : t / 16 = 0 \/ t / 16 = 2 \/ t / 16 = 3) by (unfold pduSimpleAck, pduComplexAck, pduConfirmed in E4; lia).
    split; [|discriminate]. right. left. exists (p_invoke a). split; [reflexivity|]. split; [exact T|]. unfold invoke_of. cbn [pdu_type].
    destruct T as [T|T].
    - destruct (dec_apdu_conf t r p a d Ht T E) as (z & i & s & w & -> & Ei). rewrite T. cbn [Z.eqb nth]. split; [exact Ei|].
      split; [unfold zlen; cbn [length]; lia|eapply dec_apdu_checks; eauto].
    - destruct (dec_apdu_ack t r p a d Ht ltac:(lia) E) as (i & s & w & -> & Ei).
      replace (t / 16 =? 0) with false by lia. cbn [nth]. split; [exact Ei|]. split; [unfold zlen; cbn [length]; lia|eapply dec_apdu_checks; eauto]. }
  destruct (t / 16 * 16 =? pduError) eqn:E5.
  { assert (T : t / 16 = 5) by (unfold pduError in E5; lia). split; [|discriminate]. right. right. left.
    do 3 eexists. split; [reflexivity|]. split; [exact T|]. rewrite (dec_apdu_err t r p a None d Ht T E).
    unfold invoke_of. cbn [pdu_type]. rewrite T. destruct r; reflexivity. }
  split; [left; reflexivity|discriminate].
Qed.

(** ** the whole datagram *)
Lemma bvlc_front : forall b h d, dec_BVLC (newDecoder b) = (h, d) -> derr d = None ->
  exists t f l1 l2 r p, b = t :: f :: l1 :: l2 :: r /\ d = mkDec r p None /\ v_func h = f.
Proof.
  intros b h d H He. unfold dec_BVLC, newDecoder in H.
  destruct b as [|t [|f [|l1 [|l2 r]]]]; try (cbn in H; inversion H; subst; discriminate He).
  do 2 rewrite decode_u1_ok in H.
  change (l1 :: l2 :: r) with ([l1; l2] ++ r) in H. rewrite decode_u_ok in H by (auto; discriminate).
  cbn [decode_n derr] in H. inversion H. do 6 eexists. split; [reflexivity|]. split; reflexivity.
Qed.
Definition delivered (e : effect) : bool := match e with EDeliver _ _ => true | _ => false end.
Definition pub_net (e : effect) : Prop := match e with EPubNpdu _ _ | EPubNets _ _ => True | _ => False end.
(** every datagram: the effects of its APDU, after those of a network message *)
Lemma handle_cases : forall known src b eff pan, is_bytes b -> handleMsg known src b = (eff, pan) ->
  exists pubs eff', eff = pubs ++ eff' /\ Forall pub_net pubs
  /\ (eff' <> [] -> exists pre n x, b = pre ++ x /\ apdu_effect src n x eff')
  /\ (pan = true -> (exists pre raw x, b = pre ++ x /\ has_iam x raw /\ dec_IAm (newDecoder raw) = Panic)
                 \/ (nth 1 b 0 = 4 /\ zlen b < 14)).
Proof.
  intros known src b eff pan Hb H. unfold handleMsg in H.
  destruct (dec_BVLC (newDecoder b)) as [h d] eqn:EB.
  destruct (derr d) eqn:Ed.
  { inversion H. exists [], []. split; [reflexivity|]. split; [constructor|]. split; [congruence|discriminate]. }
  destruct (bvlc_front b h d EB Ed) as (t & f & l1 & l2 & r & p & Eb & Edd & Ef).
  destruct ((v_func h =? bfBroadcast) || (v_func h =? bfUnicast) || (v_func h =? bfForwarded)).
  2:{ inversion H. exists [], []. split; [reflexivity|]. split; [constructor|]. split; [congruence|discriminate]. }
  pose proof (dec_npdu_suffix d) as HS. destruct (dec_NPDU d) as [[[n nets] err] dn] eqn:EN. cbn [snd] in HS.
  destruct err as [err|].
  { inversion H. exists [], []. split; [reflexivity|]. split; [constructor|]. split; [congruence|discriminate]. }
  set (pubs := if n_netmsg n then _ else _) in H.
  assert (HP : Forall pub_net pubs).
  { unfold pubs. destruct (n_netmsg n); [|constructor]. apply Forall_app. split;
    match goal with |- Forall _ (if ?c then _ else _) => destruct c end; constructor; try exact I; constructor. }
  assert (Hdn : derr dn = None).
  { unfold dec_NPDU in EN. repeat match type of EN with context [let '(_, _) := ?x in _] => destruct x end.
    destruct (checkMask _ maskNetMsg) in EN; [|congruence].
    repeat match type of EN with context [let '(_, _) := ?x in _] => destruct x end.
    destruct (_ =? ndpuIamRouterToNetwork) in EN; [|congruence].
    repeat match type of EN with context [let '(_, _) := ?x in _] => destruct x end. congruence. }
  destruct HS as [pre Epre]. rewrite Edd in Epre. cbn [dbuf] in Epre.
  assert (Ex : b = (t :: f :: l1 :: l2 :: pre) ++ dbuf dn) by (rewrite Eb, Epre; reflexivity).
  assert (Hx : is_bytes (dbuf dn)) by (rewrite Ex in Hb; apply is_bytes_app in Hb; apply Hb).
  destruct dn as [x q e]. cbn [dbuf derr] in *. subst e.
  pose proof (apdu_cases known src n x q Hx) as HC.
  destruct (handle_apdu known src n (mkDec x q None)) as [[eff' pan'] early]. destruct HC as [HC HPn].
  exists pubs, eff'.
  assert (EE : eff = pubs ++ eff' /\ (pan = true -> pan' = true \/ (v_func h =? bfForwarded) && (zlen (skipn 4 b) <? 10) = true)).
  { destruct (pan' || early) eqn:EP; inversion H; split; auto. }
  destruct EE as [E1 E2]. split; [exact E1|]. split; [exact HP|]. split.
  { intros _. do 3 eexists. split; [exact Ex|exact HC]. }
  intro HPan. destruct (E2 HPan) as [HH|HH].
  - left. destruct (HPn HH) as (_ & raw & HI & HD). exists (t :: f :: l1 :: l2 :: pre), raw, x. auto.
  - right. rewrite Ef in HH. subst b. cbn [nth skipn] in *. unfold bfForwarded, zlen in *. cbn [length]. lia.
Qed.

(** ** conforming frames *)
Lemma recv_frame : forall known src f n apdu, frame_func f -> npdu_ok n -> n_netmsg n = false -> exists p,
  handleMsg known src (spec_bvlc f (spec_npdu n ++ apdu))
  = fst (handle_apdu known src (npdu_seen n) (mkDec apdu p None)).
Proof.
  intros known src f n apdu Hf Hn Hm. unfold handleMsg, spec_bvlc, dec_BVLC, newDecoder.
  rewrite !decode_u1_ok. rewrite decode_u_ok by (auto using octets_length; discriminate).
  cbn [decode_n derr v_func].
  destruct (dec_npdu_spec n apdu (Some (last (octets 2 (zlen (spec_npdu n ++ apdu) + 4)) 0)) Hn) as [p' E].
  { intro C; congruence. }
  exists p'. rewrite E. cbn [npdu_seen n_netmsg]. rewrite Hm.
  replace ((f =? bfBroadcast) || (f =? bfUnicast) || (f =? bfForwarded)) with true
    by (destruct Hf as [->| ->]; reflexivity).
  destruct (handle_apdu known src _ _) as [[eff pan] early]. cbn [fst app].
  replace (f =? bfForwarded) with false by (destruct Hf as [->| ->]; reflexivity).
  destruct pan, early; reflexivity.
Qed.
Lemma recv_ack : forall known src f n t inv svc w, frame_func f -> npdu_ok n -> n_netmsg n = false ->
  is_byte t -> t / 16 = 2 \/ t / 16 = 3 ->
  handleMsg known src (spec_bvlc f (spec_npdu n ++ t :: inv :: svc :: w)) = ([EDeliver inv (PBytes (t :: inv :: svc :: w))], false).
Proof.
  intros known src f n t inv svc w Hf Hn Hm Ht Hty.
  destruct (recv_frame known src f n (t :: inv :: svc :: w) Hf Hn Hm) as [p E]. rewrite E.
  unfold handle_apdu, dec_APDU. rewrite decode_u1_ok, (land240 t Ht).
  replace ((t / 16 * 16 =? pduComplexAck) || (t / 16 * 16 =? pduSimpleAck)) with true.
  2:{ unfold pduComplexAck, pduSimpleAck. destruct Hty as [->| ->]; reflexivity. }
  rewrite !decode_u1_ok. cbn [derr p_type dbuf p_invoke].
  replace (t / 16 * 16 =? pduUnconfirmed) with false by (destruct Hty as [->| ->]; reflexivity).
  replace (_ || _) with true by (destruct Hty as [->| ->]; reflexivity). reflexivity.
Qed.
Lemma recv_confirmed : forall known src f n seg more sa sizes inv seq win svc w, frame_func f -> npdu_ok n -> n_netmsg n = false ->
  let apdu := spec_confirmed seg more sa sizes inv seq win svc ++ w in
  handleMsg known src (spec_bvlc f (spec_npdu n ++ apdu)) = ([EDeliver inv (PBytes apdu)], false).
Proof.
  intros known src f n seg more sa sizes inv seq win svc w Hf Hn Hm apdu.
  destruct (recv_frame known src f n apdu Hf Hn Hm) as [p E]. rewrite E. unfold handle_apdu, apdu.
  destruct (dec_apdu_confirmed_spec seg more sa sizes inv seq win svc w p) as [p' E']. rewrite E'. reflexivity.
Qed.
Lemma recv_error : forall known src f n inv svc c k, frame_func f -> npdu_ok n -> n_netmsg n = false ->
  0 <= c < 240 -> 0 <= k < 256 ->
  handleMsg known src (spec_bvlc f (spec_npdu n ++ spec_error inv svc c k))
  = ([EDeliver inv (PErr c (if c mod 8 =? 5 then k else 145))], false).
Proof.
  intros known src f n inv svc c k Hf Hn Hm Hc Hk.
  destruct (recv_frame known src f n (spec_error inv svc c k) Hf Hn Hm) as [p E]. rewrite E. unfold handle_apdu.
  destruct (dec_error_standard inv svc c k p Hc Hk) as [d E']. rewrite E'. reflexivity.
Qed.
Lemma recv_iam : forall known src f n i, frame_func f -> npdu_ok n -> n_netmsg n = false -> iam_ok i ->
  handleMsg known src (spec_bvlc f (spec_npdu n ++ spec_iam i))
  = ([EPubIAm (oid_inst (i_id i)) (mkIam (i_id i) (i_maxapdu i) (i_seg i) (i_vendor i) (iam_addr src (seen_addr (n_src n))))], false).
Proof.
  intros known src f n i Hf Hn Hm Hi.
  destruct (recv_frame known src f n (spec_iam i) Hf Hn Hm) as [p E]. rewrite E. unfold handle_apdu, spec_iam.
  match goal with |- context [spec_unconfirmed 0 ++ ?w] => destruct (dec_apdu_unconfirmed_spec 0 w p) as [p' E']; rewrite E' end.
  cbn [p_type p_uservice p_raw Z.eqb Pos.eqb pduUnconfirmed usvcIAm].
  destruct (dec_iam_spec i [] None Hi) as [p2 E2]. rewrite app_nil_r in E2. unfold newDecoder. rewrite E2. reflexivity.
Qed.
Lemma recv_other_unconfirmed : forall known src f n svc w, frame_func f -> npdu_ok n -> n_netmsg n = false -> svc <> 0 ->
  handleMsg known src (spec_bvlc f (spec_npdu n ++ spec_unconfirmed svc ++ w)) = ([], false).
Proof.
  intros known src f n svc w Hf Hn Hm Hs.
  destruct (recv_frame known src f n (spec_unconfirmed svc ++ w) Hf Hn Hm) as [p E]. rewrite E. unfold handle_apdu.
  destruct (dec_apdu_unconfirmed_spec svc w p) as [p' E']. rewrite E'.
  cbn [p_type p_uservice p_raw Z.eqb Pos.eqb pduUnconfirmed]. replace (svc =? usvcIAm) with false by (unfold usvcIAm; lia). reflexivity.
Qed.
Lemma recv_ignored : forall known src f n t w, frame_func f -> npdu_ok n -> n_netmsg n = false -> is_byte t ->
  t / 16 = 4 \/ 6 <= t / 16 ->
  handleMsg known src (spec_bvlc f (spec_npdu n ++ t :: w)) = ([], false).
Proof.
  intros known src f n t w Hf Hn Hm Ht Hty.
  destruct (recv_frame known src f n (t :: w) Hf Hn Hm) as [p E]. rewrite E. unfold handle_apdu, dec_APDU.
  rewrite decode_u1_ok, (land240 t Ht).
  unfold pduComplexAck, pduSimpleAck, pduUnconfirmed, pduConfirmed, pduSegmentAck, pduError, pduReject, pduAbort.
  replace ((t / 16 * 16 =? 48) || (t / 16 * 16 =? 32)) with false by lia.
  replace (t / 16 * 16 =? 16) with false by lia. replace (t / 16 * 16 =? 0) with false by lia.
  replace (t / 16 * 16 =? 80) with false by lia.
  destruct (t / 16 * 16 =? 64); [reflexivity|]. destruct (t / 16 * 16 =? 96); [reflexivity|]. destruct (t / 16 * 16 =? 112); reflexivity.
Qed.

(** ** forwarded frames *)
Lemma bvlc_head : forall f body, dec_BVLC (newDecoder (spec_bvlc f body))
  = (mkBvlc 129 f (be_val (octets 2 (zlen body + 4))) [], mkDec body (Some (last (octets 2 (zlen body + 4)) 0)) None).
Proof.
  intros f body. unfold dec_BVLC, newDecoder, spec_bvlc. rewrite !decode_u1_ok.
  rewrite decode_u_ok by (auto using octets_length; discriminate). reflexivity.
Qed.
Lemma recv_forwarded : forall known src body,
  fst (handleMsg known src (spec_bvlc 4 body)) = fst (handleMsg known src (spec_bvlc 11 body)).
Proof.
  intros known src body. unfold handleMsg. rewrite !bvlc_head.
  cbn [derr v_func]. unfold bfBroadcast, bfUnicast, bfForwarded. cbn [Z.eqb Pos.eqb orb].
  destruct (dec_NPDU _) as [[[n nets] [e|]] d]; [reflexivity|].
  destruct (handle_apdu _ _ _ _) as [[eff pan] early]. destruct (pan || early); reflexivity.
Qed.
Lemma forwarded_net10 : forall known src d p,
  fst (handleMsg known src (spec_bvlc 4 ([10; 0; 0; d; 186; 192] ++ p))) = [EDeliver 186 (PBytes ([0; d; 186; 192] ++ p))].
Proof.
  intros known src d p. rewrite recv_forwarded.
  assert (N : npdu_ok (mkNpdu 10 None None 0 false 0 false 0 0)) by (unfold npdu_ok, is_byte; cbn; repeat split; try lia).
  pose proof (recv_confirmed known src 11 (mkNpdu 10 None None 0 false 0 false 0 0) false false false d 186 0 0 192 p ltac:(right; reflexivity) N eq_refl) as E.
  cbv zeta in E. change (spec_npdu _) with [10; 0] in E. cbn [spec_confirmed flags bit_z app Z.mul Z.add] in *. rewrite E. reflexivity.
Qed.

(** C35, C36 for every datagram *)
Lemma recv_justified : forall known src b e, is_bytes b -> In e (fst (handleMsg known src b)) -> justified b e.
Proof.
  intros known src b e Hb H. destruct (handleMsg known src b) as [eff pan] eqn:EH. cbn [fst] in H.
  destruct (handle_cases known src b eff pan Hb EH) as (pubs & eff' & -> & HP & HA & _). apply in_app_or in H. destruct H as [H|H].
  { rewrite Forall_forall in HP. specialize (HP _ H). destruct e; try contradiction; exact I. }
  destruct HA as (pre & n & x & -> & HE); [intro C; rewrite C in H; contradiction|].
  destruct HE as [->|[(id & -> & Ht & Hi & _)|[(id & c & k & -> & Ht & Hi)|(i & raw & d & -> & (t & Et & Ht) & Ed & _)]]]; [contradiction| | |]; destruct H as [<-|[]]; cbn [justified].
  - split; [exists pre; reflexivity|]. split; [congruence|tauto].
  - exists pre, x. auto.
  - split; [reflexivity|]. subst x. exists pre, t, raw. auto.
Qed.
