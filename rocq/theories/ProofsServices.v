(** Service requests as written, ReadProperty acks as read. *)
From Coq Require Import Lia ZifyBool ZifyNat.
From Verif Require Import ModelClient SpecWire SpecLayers SpecServices
  ProofsWire ProofsTag ProofsApp ProofsBits ProofsTrunc ProofsCodec ProofsLayers.
Ltac Zify.zify_post_hook ::= Z.div_mod_to_equations.

(** ** bit strings as shown *)
Lemma pack8_rev : forall l, byteReverseBits (fst (pack8 8 l)) = fst (pack8 8 (rev (firstn 8 (l ++ repeat false 8)))).
Proof.
  intro l.
  do 8 (destruct l as [|[] l]; [reflexivity| |]); reflexivity.
Qed.
Lemma pack8_rest : forall n l, snd (pack8 n l) = skipn n l.
Proof.
  induction n; intros l; [reflexivity|]. destruct l as [|b l]; [reflexivity|]. cbn [pack8 skipn].
  rewrite <- IHn. destruct (pack8 n l). reflexivity.
Qed.
Lemma pack_lsb_rev : forall n l, map byteReverseBits (pack n l) = pack_lsb n l.
Proof.
  induction n; intros l; [reflexivity|]. change (pack (S n) l) with (let '(v, r) := pack8 8 l in v :: pack n r).
  change (pack_lsb (S n) l) with (fst (pack8 8 (rev (firstn 8 (l ++ repeat false 8)))) :: pack_lsb n (skipn 8 l)).
  rewrite <- pack8_rev, <- IHn, <- (pack8_rest 8). destruct (pack8 8 l). reflexivity.
Qed.
Lemma shown_bits : forall l, shown (SBits l) = VBits (Some (bits_of l)).
Proof. intros. unfold shown, bits_of. rewrite pack_lsb_rev. reflexivity. Qed.

Lemma dec_sent : forall s rest p, supported s ->
  dec_AppData (mkDec (spec_sent s ++ rest) p None) = Val (shown s, None) (mkDec rest (Some (last (spec_sent s) 0)) None).
Proof.
  intros [v|l] rest p H.
  - apply dec_app_readable. exact H.
  - rewrite shown_bits. apply dec_bits. exact H.
Qed.
Lemma sent_tag : forall s, supported s -> exists num len w, spec_sent s = spec_tag 0 num len ++ w /\ 0 <= num <= 12 /\ 0 <= len < 2 ^ 32.
Proof.
  intros [v|l] H; simpl in H.
  - destruct v; simpl in H; try contradiction; cbn [spec_sent spec_app];
    try (do 3 eexists; split; [reflexivity|]; split; [lia|]).
    + exists 0, 0, []. rewrite app_nil_r. split; [reflexivity|lia].
    + exists 1, (if b then 1 else 0), []. rewrite app_nil_r. split; [reflexivity|]. destruct b; lia.
    + pose proof (usize_bound n H). lia.
    + pose proof (ssize_bound n (proj1 H)). lia.
    + lia.
    + lia.
    + unfold zlen in *. lia.
    + unfold zlen in *. lia.
    + pose proof (usize_bound n H). lia.
    + lia.
    + lia.
  - do 3 eexists. cbn [spec_sent]. unfold spec_bits. split; [reflexivity|]. unfold bit_octets, zlen in *. lia.
Qed.
Lemma spec_tag_len : forall c n l, 1 <= zlen (spec_tag c n l).
Proof. intros. unfold spec_tag, zlen. rewrite app_length. cbn [length]. lia. Qed.
Lemma sent_len : forall s, supported s -> 1 <= zlen (spec_sent s).
Proof.
  intros s H. destruct (sent_tag s H) as (num & len & w & E & _). rewrite E. unfold zlen. rewrite app_length.
  pose proof (spec_tag_len 0 num len). unfold zlen in *. lia.
Qed.

(** ** context tags with a short length *)
Lemma tagNumber_short : forall c num len rest p, 0 <= c <= 1 -> 0 <= num < 256 -> 0 <= len < 5 ->
  tagNumber (mkDec (spec_tag c num len ++ rest) p None)
  = ((num, tag_meta c num len), mkDec rest (Some (last (spec_tag c num len) 0)) None).
Proof.
  intros c num len rest p Hc Hn Hl. destruct (tagNumber_spec c num len rest p Hc Hn ltac:(lia)) as (p' & E & Hp).
  rewrite E. replace (len <? 5) with true by lia. cbn [app]. subst p'.
  unfold spec_tag. replace (len <? 5) with true by lia. rewrite app_nil_r. unfold tag_meta.
  replace (len <? 5) with true by lia. reflexivity.
Qed.
Lemma dec_value_short : forall c num len d, 0 <= c <= 1 -> 0 <= num < 256 -> 0 <= len < 5 ->
  dec_value (tag_meta c num len) d = (len, d).
Proof.
  intros c num len d Hc Hn Hl. unfold dec_value. set (m := tag_meta c num len).
  assert (Hm : is_byte m) by (unfold m, tag_meta, is_byte; destruct (num <? 15) eqn:?; destruct (len <? 5) eqn:?; lia).
  destruct (meta_facts m Hm) as (Hcl & Hop & _ & Hev & _ & _ & Hld). rewrite Hcl, Hop, Hev, Hld.
  assert (Hm8 : m mod 8 = len) by (unfold m, tag_meta; destruct (num <? 15) eqn:?; destruct (len <? 5) eqn:?; lia).
  rewrite Hm8. replace (len =? 5) with false by lia. replace (6 <=? len) with false by lia.
  replace (len =? 7) with false by lia. reflexivity.
Qed.
Lemma dec_value_open : forall num d, 0 <= num < 256 -> dec_value (open_meta num) d = (0, d).
Proof.
  intros num d H. unfold dec_value.
  destruct (open_meta_facts num H) as (_ & _ & Ho & Hc & _ & He & _). rewrite He, Ho. reflexivity.
Qed.
Lemma dec_value_close : forall num d, 0 <= num < 256 -> dec_value (close_meta num) d = (0, d).
Proof.
  intros num d H. unfold dec_value.
  destruct (open_meta_facts num H) as (_ & _ & _ & _ & _ & _ & Hc & Ho & _ & He). rewrite He, Ho. reflexivity.
Qed.

(** ** the reference part of a request *)
Lemma sizes_5 : encodeMaxSegsMaxApdu 0 MaxAPDU = 5. Proof. reflexivity. Qed.
Lemma enc_request : forall inv svc b, is_byte inv -> is_byte svc ->
  fst (enc_APDU (confirmedApdu inv svc) (mkEnc b None)) = mkEnc (b ++ spec_request inv svc) None.
Proof.
  intros inv svc b Hi Hs. unfold confirmedApdu.
  rewrite enc_apdu_confirmed_spec; cbn [p_type p_invoke p_seq p_window p_service]; try assumption; try reflexivity;
    try (unfold is_byte; lia).
Qed.
Lemma enc_ctx_oid : forall num o b, 0 <= num < 256 -> valid_oid o ->
  contextObjectID num o (mkEnc b None) = mkEnc (b ++ spec_ctx_oid num o) None.
Proof.
  intros num o b Hn Ho. unfold contextObjectID. rewrite enc_ctx_tag by lia. rewrite enc_objectId_spec by assumption.
  unfold spec_ctx_oid. rewrite <- app_assoc. reflexivity.
Qed.
Lemma enc_index : forall num idx b, 0 <= num < 256 -> in_u32 idx ->
  (if negb (idx =? ArrayAll) then contextUnsigned num idx (mkEnc b None) else mkEnc b None)
  = mkEnc (b ++ spec_index num idx) None.
Proof.
  intros num idx b Hn Hi. unfold spec_index, whole, ArrayAll in *. destruct (idx =? 4294967295); cbn [negb].
  - rewrite app_nil_r. reflexivity.
  - apply enc_ctx_unsigned_spec; assumption.
Qed.
Lemma header_valid : forall o p ps nm ds b, valid_oid o -> valid_property (pr_type p) -> in_u32 (pr_index p) ->
  readPropertyHeader 0 (mkPD (mkObj nm ds o (p :: ps))) (mkEnc b None)
  = ROk (mkEnc (b ++ spec_reference o (pr_type p) (pr_index p)) None, (3, None)).
Proof.
  intros o p ps nm ds b Ho Hp Hi. unfold readPropertyHeader. cbn [pd_object o_id o_props].
  unfold isValidObjectType, isValidPropertyType, MaxObject, MaxPropertyID. destruct Ho as [Ht Hn]. red in Hp.
  replace (1023 <? oid_type o) with false by lia. replace (4194303 <? pr_type p) with false by lia.
  rewrite enc_ctx_oid by (try split; try assumption; lia). unfold contextEnumerated.
  change (u8 (0 + 1)) with 1. change (u8 (1 + 1)) with 2. change (u8 (2 + 1)) with 3.
  rewrite enc_ctx_unsigned_spec by lia. rewrite enc_index by (try assumption; lia).
  unfold spec_reference. rewrite <- !app_assoc. reflexivity.
Qed.
Lemma header_invalid : forall t o p ps nm ds e, 1023 < oid_type o \/ 4194303 < pr_type p ->
  exists x, readPropertyHeader t (mkPD (mkObj nm ds o (p :: ps))) e = ROk (e, (0, Some x)).
Proof.
  intros t o p ps nm ds e H. unfold readPropertyHeader. cbn [pd_object o_id o_props].
  unfold isValidObjectType, isValidPropertyType, MaxObject, MaxPropertyID.
  destruct (1023 <? oid_type o) eqn:E1; [eexists; reflexivity|].
  destruct (4194303 <? pr_type p) eqn:E2; [eexists; reflexivity|lia].
Qed.

(** ** reading the reference *)
Lemma reference_len : forall o p idx, valid_oid o -> in_u32 p -> 7 <= zlen (spec_reference o p idx).
Proof.
  intros o p idx Ho Hp. unfold spec_reference, spec_ctx_oid, spec_ctx_unsigned, spec_oid, spec_unsigned, zlen.
  rewrite !app_length, !octets_length. pose proof (usize_bound p Hp).
  pose proof (spec_tag_len 1 0 4). pose proof (spec_tag_len 1 1 (usize p)). unfold zlen in *. lia.
Qed.

Lemma loop_values : forall vs fuel acc c p, Forall supported vs -> (length vs < fuel)%nat ->
  exists p', readprop_loop fuel acc (mkDec (flat_map spec_sent vs ++ [c]) p None)
  = Val (acc ++ map shown vs, None) (mkDec [c] p' None).
Proof.
  induction vs as [|v vs IH]; intros fuel acc c p Hs Hf; (destruct fuel as [|fuel]; [simpl in Hf; lia|]).
  - cbn [readprop_loop flat_map app dlen]. change (1 <? dlen _) with false. cbv iota.
    cbn [map]. rewrite app_nil_r. eexists. reflexivity.
  - apply Forall_cons_iff in Hs. destruct Hs as [Hv Hs]. cbn [readprop_loop flat_map].
    replace (1 <? dlen _) with true.
    2:{ symmetry. unfold dlen, zlen. cbn [dbuf]. rewrite !app_length. pose proof (sent_len v Hv). unfold zlen in *.
        cbn [length]. lia. }
    rewrite <- app_assoc. rewrite dec_sent by assumption. cbn [obind].
    destruct (IH fuel (acc ++ [shown v]) c (Some (last (spec_sent v) 0)) Hs) as [p' E]; [simpl in Hf; lia|].
    rewrite E. exists p'. cbn [map]. rewrite <- app_assoc. reflexivity.
Qed.

Lemma values_len : forall vs, Forall supported vs -> (length vs <= length (flat_map spec_sent vs))%nat.
Proof.
  intros vs H. induction H as [|v vs Hs Hv IH]; [apply le_n|].
  cbn [flat_map]. rewrite app_length. pose proof (sent_len v Hs). unfold zlen in *. cbn [length]. lia.
Qed.
Lemma ctx1_facts : forall num v, 0 <= num < 256 -> 0 <= v < 2 ^ 32 -> 0 <= usize v < 5.
Proof. intros. pose proof (usize_bound v H0). lia. Qed.

(** the request, as a server would read it from its service data *)
Lemma read_reference : forall o p idx q, valid_oid o -> in_u32 p -> in_u32 idx -> exists d,
  dec_ReadProperty (mkDec (spec_reference o p idx) q None)
  = Val (Some (mkPD (mkObj [] [] o [mkProp p idx VNil 0])), None) d /\ derr d = None.
Proof.
  intros o p idx q Ho Hp Hi. unfold dec_ReadProperty, dec_ReadProperty_fuel.
  pose proof (reference_len o p idx Ho Hp) as HL. unfold dlen at 1. cbn [dbuf].
  replace (zlen (spec_reference o p idx) <? 7) with false by lia.
  set (fuel := S _).
  unfold spec_reference, spec_ctx_oid, spec_ctx_unsigned at 1. rewrite <- !app_assoc.
  rewrite tagNumber_short by lia. cbn [Z.eqb negb]. rewrite tag_meta_ctx by lia. cbn [Z.eqb Pos.eqb negb].
  rewrite dec_objectId_spec by assumption.
  pose proof (ctx1_facts 1 p ltac:(lia) Hp) as Hu.
  rewrite tagNumber_short by lia. cbn [Z.eqb Pos.eqb negb].
  rewrite dec_value_short by lia. unfold dec_enumerated. rewrite dec_unsigned_spec by assumption.
  unfold spec_index, whole. destruct (idx =? 4294967295) eqn:E.
  - unfold dlen. cbn [dbuf zlen length Z.of_nat Z.eqb negb orb Z.leb Z.compare Pos.compare Pos.compare_cont derr].
    apply Z.eqb_eq in E. subst idx. eexists. split; reflexivity.
  - unfold dlen at 1. cbn [dbuf]. unfold spec_ctx_unsigned.
    pose proof (ctx1_facts 2 idx ltac:(lia) Hi) as Hui.
    replace (spec_tag 1 2 (usize idx) ++ spec_unsigned idx) with (spec_tag 1 2 (usize idx) ++ spec_unsigned idx ++ [])
      by (rewrite app_nil_r; reflexivity).
    replace (zlen (spec_tag 1 2 (usize idx) ++ spec_unsigned idx ++ []) =? 0) with false.
    2:{ symmetry. unfold zlen. rewrite app_length. pose proof (spec_tag_len 1 2 (usize idx)). unfold zlen in *. lia. }
    cbn [negb]. rewrite tagNumber_short by lia.
    replace (negb (dlen _ =? 0)) with true.
    2:{ symmetry. unfold dlen, zlen. cbn [dbuf]. rewrite app_length. unfold spec_unsigned. rewrite octets_length.
        pose proof (usize_bound idx Hi). cbn [length]. lia. }
    cbn [orb Z.eqb Pos.eqb]. rewrite dec_value_short by lia. rewrite dec_unsigned_spec by assumption.
    unfold dlen. cbn [dbuf zlen length Z.of_nat Z.ltb Z.compare Z.eqb derr]. eexists. split; reflexivity.
Qed.

(** an ack: reference, opening tag 3, values, any one-octet tag *)
Lemma read_ack_body : forall o p idx vs c q, valid_oid o -> in_u32 p -> in_u32 idx -> Forall supported vs -> exists d,
  dec_ReadProperty (mkDec (spec_reference o p idx ++ spec_open 3 ++ flat_map spec_sent vs ++ [c]) q None)
  = Val (Some (mkPD (mkObj [] [] o [mkProp p idx (one_or_list (map shown vs)) 0])), None) d /\ derr d = None.
Proof.
  intros o p idx vs c q Ho Hp Hi Hv. unfold dec_ReadProperty, dec_ReadProperty_fuel.
  pose proof (reference_len o p idx Ho Hp) as HL. unfold dlen at 1. cbn [dbuf].
  set (tail := flat_map spec_sent vs ++ [c]).
  set (fuel := S (length (spec_reference o p idx ++ spec_open 3 ++ tail))).
  assert (Hfuel : (length vs < fuel)%nat).
  { unfold fuel, tail. rewrite !app_length. pose proof (values_len vs Hv). lia. }
  replace (zlen (spec_reference o p idx ++ spec_open 3 ++ tail) <? 7) with false.
  2:{ symmetry. unfold zlen in *. rewrite app_length. lia. }
  unfold spec_reference, spec_ctx_oid, spec_ctx_unsigned at 1. rewrite <- !app_assoc.
  rewrite tagNumber_short by lia. cbn [Z.eqb negb]. rewrite tag_meta_ctx by lia. cbn [Z.eqb Pos.eqb negb].
  rewrite dec_objectId_spec by assumption.
  pose proof (ctx1_facts 1 p ltac:(lia) Hp) as Hu.
  rewrite tagNumber_short by lia. cbn [Z.eqb Pos.eqb negb].
  rewrite dec_value_short by lia. unfold dec_enumerated. rewrite dec_unsigned_spec by assumption.
  assert (Ht : 1 <= zlen tail) by (unfold tail, zlen; rewrite app_length; simpl; lia).
  assert (Hc : forall l, collapse l = one_or_list l) by reflexivity.
  unfold spec_index, whole. destruct (idx =? 4294967295) eqn:E.
  - cbn [app]. unfold dlen at 1. cbn [dbuf].
    replace (zlen (spec_open 3 ++ tail) =? 0) with false by (symmetry; unfold zlen; rewrite app_length; cbn [length spec_open Z.ltb Z.compare Pos.compare Pos.compare_cont]; lia).
    cbn [negb]. rewrite tagNumber_open by lia.
    cbn [Z.leb Z.compare Pos.compare Pos.compare_cont]. rewrite orb_true_r. rewrite dec_value_open by lia.
    cbn [Z.eqb Pos.eqb].
    destruct (loop_values vs fuel [] c (Some (last (spec_open 3) 0)) Hv Hfuel) as [p' EL]. fold tail in EL.
    rewrite EL. cbn [obind derr app]. rewrite Hc. apply Z.eqb_eq in E. subst idx. eexists. split; reflexivity.
  - unfold spec_ctx_unsigned. rewrite <- !app_assoc. unfold dlen at 1. cbn [dbuf].
    pose proof (ctx1_facts 2 idx ltac:(lia) Hi) as Hui.
    replace (zlen (spec_tag 1 2 (usize idx) ++ spec_unsigned idx ++ spec_open 3 ++ tail) =? 0) with false.
    2:{ symmetry. unfold zlen. rewrite app_length. pose proof (spec_tag_len 1 2 (usize idx)). unfold zlen in *. lia. }
    cbn [negb]. rewrite tagNumber_short by lia.
    cbn [Z.leb Z.compare Pos.compare Pos.compare_cont]. rewrite orb_true_r. rewrite dec_value_short by lia.
    cbn [Z.eqb Pos.eqb]. rewrite dec_unsigned_spec by assumption.
    replace (0 <? dlen _) with true.
    2:{ symmetry. unfold dlen, zlen in *. cbn [dbuf]. rewrite app_length. lia. }
    rewrite tagNumber_open by lia. cbn [Z.eqb Pos.eqb].
    destruct (loop_values vs fuel [] c (Some (last (spec_open 3) 0)) Hv Hfuel) as [p' EL]. fold tail in EL.
    rewrite EL. cbn [obind derr app]. rewrite Hc. eexists. split; reflexivity.
Qed.
