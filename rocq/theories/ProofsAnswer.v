(** Proofs about answers that are not what was asked for: C150. *)
From Coq Require Import Lia ZifyBool ZifyNat.
From Verif Require Import ModelClient SpecWire SpecCodec SpecLayers SpecServices SpecObs SpecClient SpecAnswer
  ProofsWire ProofsTag ProofsApp ProofsBits ProofsTrunc ProofsCodec ProofsLayers ProofsLayerProps ProofsServices ProofsMulti ProofsTerm ProofsServiceProps ProofsRecv ProofsCall.
Ltac Zify.zify_post_hook ::= Z.div_mod_to_equations.

(** ** The head of an answer *)
Lemma heads : forall t, ack_head t -> Z.land 240 t = 32 \/ Z.land 240 t = 48.
Proof.
  intros t H. assert (S : forallb (fun k => (Z.land 240 (32 + Z.of_nat k) =? 32) || (Z.land 240 (32 + Z.of_nat k) =? 48)) (seq 0 32) = true) by (vm_compute; reflexivity).
  rewrite forallb_forall in S. unfold ack_head in H. specialize (S (Z.to_nat (t - 32))). rewrite in_seq in S. specialize (S ltac:(lia)).
  replace (32 + Z.of_nat (Z.to_nat (t - 32))) with t in S by lia. lia.
Qed.
Lemma check_head : forall t i s w, ack_head t -> check_apdu (newDecoder (t :: i :: s :: w)) = (None, mkDec w (Some s) None).
Proof.
  intros t i s w H. unfold check_apdu, newDecoder, dec_APDU. rewrite decode_u1_ok.
  destruct (heads t H) as [E|E]; rewrite E; cbn [Z.eqb Pos.eqb pduComplexAck pduSimpleAck orb]; rewrite !decode_u1_ok; reflexivity.
Qed.
(** the octet before the data is not looked at *)
Definition verdict {A} (o : out dec (A * option gerr)) : out dec (A * option gerr) :=
  match o with Val (a, Some x) _ => Val (a, Some x) (newDecoder []) | _ => o end.
Lemma read_before : forall w p q, verdict (dec_ReadProperty (mkDec w p None)) = verdict (dec_ReadProperty (mkDec w q None)).
Proof.
  intros w p q. unfold dec_ReadProperty, dec_ReadProperty_fuel. change (dlen (mkDec w p None)) with (zlen w). change (dlen (mkDec w q None)) with (zlen w). cbn [dbuf]. destruct (zlen w <? 7) eqn:L; [reflexivity|]. destruct w as [|b w]; [discriminate L|].
  assert (T : tagNumber (mkDec (b :: w) p None) = tagNumber (mkDec (b :: w) q None)) by (unfold tagNumber; rewrite !decode_u1_ok; reflexivity). rewrite T. reflexivity.
Qed.
Lemma multi_before : forall fuel w p q, match dec_ReadMultiplePropertyAck fuel (mkDec w p None), dec_ReadMultiplePropertyAck fuel (mkDec w q None) with
  | Val r _, Val r' _ => r = r' | Panic, Panic => True | Fuel, Fuel => True | _, _ => False end.
Proof.
  intros fuel w p q. unfold dec_ReadMultiplePropertyAck. destruct fuel as [|f]; [exact I|]. cbn [obj_loop derr]. change (dlen (mkDec w p None)) with (zlen w). change (dlen (mkDec w q None)) with (zlen w).
  destruct (0 <? zlen w) eqn:L; [|reflexivity]. destruct w as [|b w]; [discriminate L|].
  assert (T : tagNumberAndValue (mkDec (b :: w) p None) = tagNumberAndValue (mkDec (b :: w) q None)) by (unfold tagNumberAndValue, tagNumber; rewrite !decode_u1_ok; reflexivity). rewrite T.
  match goal with |- match ?X with _ => _ end => destruct X as [[a b0] d| |]; auto end.
Qed.
Lemma exchange_alike : forall e e' k dest data, alike e e' ->
  fst (exchange e k dest data) = fst (exchange e' k dest data) /\
  match snd (exchange e k dest data), snd (exchange e' k dest data) with inl a, inl b => a = b | inr a, inr b => same_data a b | _, _ => False end.
Proof.
  intros e e' k dest data [_ H]. unfold exchange. destruct (send_dgram dest data None) as [g|]; [|split; reflexivity]. destruct (H k g) as [S R]. rewrite <- S. destruct (at_sent (ev_att e k g)); [|split; reflexivity].
  split; [reflexivity|]. cbn [snd]. destruct R as [|a b R]; [reflexivity|exact R].
Qed.
Lemma rp_alike : forall n k e e' dest data last, alike e e' -> rp_loop n k e dest data last = rp_loop n k e' dest data last.
Proof.
  induction n as [|n IH]; intros k e e' dest data last A; [reflexivity|]. cbn [rp_loop]. destruct (exchange_alike e e' k dest data A) as [F S].
  destruct (exchange e k dest data) as [tr r], (exchange e' k dest data) as [tr' r']. cbn [fst snd] in F, S. subst tr'. destruct r as [x|x], r' as [y|y]; try contradiction.
  - subst y. rewrite (IH (S k) e e' dest data x A). reflexivity.
  - destruct S as [x|t i s t' i' s' w T T'].
    + destruct x as [b|c x]; [|reflexivity]. destruct (check_apdu (newDecoder b)) as [[x|] d]; [rewrite (IH _ e e' dest data _ A); reflexivity|].
      destruct (dec_ReadProperty d) as [[[o|] [x|]] d'| |]; try reflexivity; rewrite (IH _ e e' dest data _ A); reflexivity.
    + rewrite (check_head _ _ _ _ T), (check_head _ _ _ _ T'). pose proof (read_before w (Some s) (Some s')) as V. destruct (dec_ReadProperty (mkDec w (Some s) None)) as [[o x] d'| |], (dec_ReadProperty (mkDec w (Some s') None)) as [[o' x'] d''| |];
        cbn [verdict] in V; try (destruct x); try (destruct x'); try discriminate V; try reflexivity.
      * injection V as -> ->. destruct o' as [o'|]; rewrite (IH _ e e' dest data _ A); reflexivity.
      * injection V as -> ->. destruct o'; [reflexivity|]. rewrite (IH _ e e' dest data _ A). reflexivity.
Qed.
Lemma wp_alike : forall n k e e' dest data last, alike e e' -> wp_loop n k e dest data last = wp_loop n k e' dest data last.
Proof.
  induction n as [|n IH]; intros k e e' dest data last A; [reflexivity|]. cbn [wp_loop]. destruct (exchange_alike e e' k dest data A) as [F S].
  destruct (exchange e k dest data) as [tr r], (exchange e' k dest data) as [tr' r']. cbn [fst snd] in F, S. subst tr'. destruct r as [x|x], r' as [y|y]; try contradiction.
  - subst y. rewrite (IH (S k) e e' dest data x A). reflexivity.
  - destruct S as [x|t i s t' i' s' w T T'].
    + destruct x as [b|c x]; [|reflexivity]. destruct (fst (check_apdu (newDecoder b))) as [x|]; [rewrite (IH _ e e' dest data _ A); reflexivity|reflexivity].
    + rewrite (check_head _ _ _ _ T), (check_head _ _ _ _ T'). reflexivity.
Qed.
Lemma rpm_alike : forall fuel n k e e' dest data last, alike e e' -> rpm_loop fuel n k e dest data last = rpm_loop fuel n k e' dest data last.
Proof.
  intros fuel. induction n as [|n IH]; intros k e e' dest data last A; [reflexivity|]. cbn [rpm_loop]. destruct (exchange_alike e e' k dest data A) as [F S].
  destruct (exchange e k dest data) as [tr r], (exchange e' k dest data) as [tr' r']. cbn [fst snd] in F, S. subst tr'. destruct r as [x|x], r' as [y|y]; try contradiction.
  - subst y. rewrite (IH (S k) e e' dest data x A). reflexivity.
  - destruct S as [x|t i s t' i' s' w T T'].
    + destruct x as [b|c x]; [|rewrite (IH _ e e' dest data _ A); reflexivity]. destruct (check_apdu (newDecoder b)) as [[x|] d]; [rewrite (IH _ e e' dest data _ A); reflexivity|].
      destruct (dec_ReadMultiplePropertyAck fuel d) as [[o [x|]] d'| |]; try reflexivity; rewrite (IH _ e e' dest data _ A); reflexivity.
    + rewrite (check_head _ _ _ _ T), (check_head _ _ _ _ T'). pose proof (multi_before fuel w (Some s) (Some s')) as V. destruct (dec_ReadMultiplePropertyAck fuel (mkDec w (Some s) None)) as [[o x] d'| |], (dec_ReadMultiplePropertyAck fuel (mkDec w (Some s') None)) as [[o' x'] d''| |];
        try contradiction; try reflexivity. injection V as <- <-. destruct x; [rewrite (IH _ e e' dest data _ A); reflexivity|reflexivity].
Qed.
Lemma wpm_alike : forall n k e e' dest data last, alike e e' -> wpm_loop n k e dest data last = wpm_loop n k e' dest data last.
Proof.
  induction n as [|n IH]; intros k e e' dest data last A; [reflexivity|]. cbn [wpm_loop]. destruct (exchange_alike e e' k dest data A) as [F S].
  destruct (exchange e k dest data) as [tr r], (exchange e' k dest data) as [tr' r']. cbn [fst snd] in F, S. subst tr'. destruct r as [x|x], r' as [y|y]; try contradiction.
  - subst y. rewrite (IH (S k) e e' dest data x A). reflexivity.
  - destruct S as [x|t i s t' i' s' w T T'].
    + destruct x as [b|c x]; [|rewrite (IH _ e e' dest data _ A); reflexivity]. destruct (fst (check_apdu (newDecoder b))) as [x|]; [rewrite (IH _ e e' dest data _ A); reflexivity|reflexivity].
    + rewrite (check_head _ _ _ _ T), (check_head _ _ _ _ T'). reflexivity.
Qed.
Lemma heads_ignored : forall e e' me dev fuel rp wp mrp mwp, alike e e' ->
  ReadProperty e me dev rp = ReadProperty e' me dev rp /\ WriteProperty e me dev wp = WriteProperty e' me dev wp /\
  ReadMultiProperty fuel e me dev mrp = ReadMultiProperty fuel e' me dev mrp /\ WriteMultiProperty e me dev mwp = WriteMultiProperty e' me dev mwp.
Proof.
  intros e e' me dev fuel rp wp mrp mwp A. pose proof (proj1 A) as I. split; [|split; [|split]].
  - unfold ReadProperty. rewrite <- I. destruct (ev_id e); [|reflexivity]. destruct (enc_NPDU _ _); [|reflexivity]. destruct (enc_ReadProperty _ _ _) as [[en [x|]]|]; try reflexivity. apply rp_alike. exact A.
  - unfold WriteProperty. rewrite <- I. destruct (ev_id e); [|reflexivity]. destruct (enc_NPDU _ _); [|reflexivity]. destruct (enc_WriteProperty _ _ _) as [[en x]|]; try reflexivity. destruct (eerr en); [reflexivity|]. apply wp_alike. exact A.
  - unfold ReadMultiProperty. rewrite <- I. destruct (ev_id e); [|reflexivity]. destruct (dv_maxapdu dev =? 0); [reflexivity|]. destruct (enc_NPDU _ _); [|reflexivity]. destruct (enc_ReadMultipleProperty _ _ _) as [[en [x|]]|]; try reflexivity. destruct (_ <? _); [reflexivity|]. apply rpm_alike. exact A.
  - unfold WriteMultiProperty. rewrite <- I. destruct (ev_id e); [|reflexivity]. destruct (enc_NPDU _ _); [|reflexivity]. destruct (enc_WriteMultiProperty _ _ _) as [[en x]|]; try reflexivity. destruct (eerr en); [reflexivity|]. destruct (_ <? _); [reflexivity|]. apply wpm_alike. exact A.
Qed.

(** ** Segments *)
Lemma windows : forall win, 0 <= win < 128 -> ~ 8 <= win <= 15 ->
  meta_isExtendedTagNumber win = false /\ (negb (Z.shiftr win 4 =? 0) = true \/ negb (meta_isContextSpecific win) = true).
Proof.
  intros win H N. assert (S : forallb (fun k => let w := Z.of_nat k in (negb (meta_isExtendedTagNumber w)) && ((8 <=? w) && (w <=? 15) || negb (Z.shiftr w 4 =? 0) || negb (meta_isContextSpecific w))) (seq 0 128) = true) by (vm_compute; reflexivity).
  rewrite forallb_forall in S. specialize (S (Z.to_nat win)). rewrite in_seq in S. specialize (S ltac:(lia)). cbv zeta in S. replace (Z.of_nat (Z.to_nat win)) with win in S by lia.
  destruct (meta_isExtendedTagNumber win); [discriminate S|]. split; [reflexivity|]. destruct (Z.shiftr win 4 =? 0), (meta_isContextSpecific win); cbn in S; auto; exfalso; lia.
Qed.
Lemma segment_head : forall more inv seq win svc data, check_apdu (newDecoder (spec_segment more inv seq win svc data)) = (None, mkDec (win :: svc :: data) (Some seq) None).
Proof. intros. unfold spec_segment. apply check_head. unfold ack_head. destruct more; lia. Qed.
Lemma segment_read : forall win svc data p, 0 <= win < 128 -> ~ 8 <= win <= 15 -> exists x d, dec_ReadProperty (mkDec (win :: svc :: data) p None) = Val (None, Some x) d.
Proof.
  intros win svc data p H N. destruct (windows win H N) as [X C]. unfold dec_ReadProperty, dec_ReadProperty_fuel. destruct (dlen _ <? 7); [do 2 eexists; reflexivity|]. unfold tagNumber at 1. rewrite decode_u1_ok, X.
  destruct (negb (Z.shiftr win 4 =? 0)) eqn:T; [do 2 eexists; reflexivity|]. destruct C as [C|C]; [discriminate C|]. rewrite C. do 2 eexists. reflexivity.
Qed.
Lemma segment_multi : forall fuel win svc data p, 0 <= win < 128 -> ~ 8 <= win <= 15 ->
  match dec_ReadMultiplePropertyAck fuel (mkDec (win :: svc :: data) p None) with Val (_, None) _ => False | Panic => False | _ => True end.
Proof.
  intros fuel win svc data p H N. destruct (windows win H N) as [X C]. unfold dec_ReadMultiplePropertyAck. destruct fuel as [|f]; [exact I|]. cbn [obj_loop derr]. change (dlen (mkDec (win :: svc :: data) p None)) with (zlen (win :: svc :: data)).
  replace (0 <? zlen (win :: svc :: data)) with true by (unfold zlen; cbn [length]; lia). unfold tagNumberAndValue at 1, tagNumber. rewrite decode_u1_ok, X. destruct (dec_value win _) as [v d].
  destruct (negb (Z.shiftr win 4 =? 0)) eqn:T; [exact I|]. destruct C as [C|C]; [discriminate C|]. rewrite C. exact I.
Qed.
Lemma segments_refused : forall e me dev rp mrp fuel out objs, only_segments e -> snd (ReadProperty e me dev rp) <> COk out /\ snd (ReadMultiProperty fuel e me dev mrp) <> COk objs.
Proof.
  intros e me dev rp mrp fuel out objs H. split.
  - unfold ReadProperty. destruct (ev_id e); [|discriminate]. destruct (enc_NPDU _ _); [|discriminate]. destruct (enc_ReadProperty _ _ _) as [[en [x|]]|]; try discriminate.
    generalize CNoData. generalize 0%nat. induction retryCount as [|n IH]; intros k l; [discriminate|]. cbn [rp_loop]. unfold exchange. destruct (send_dgram _ (ebuf en) None) as [g|].
    2:{ specialize (IH (S k) CSend). destruct (rp_loop n _ _ _ _ _); exact IH. }
    destruct (at_sent (ev_att e k g)); [|specialize (IH (S k) CSend); destruct (rp_loop n _ _ _ _ _); exact IH].
    destruct (at_reply (ev_att e k g)) as [q|] eqn:Q; [|specialize (IH (S k) CTimeout); destruct (rp_loop n _ _ _ _ _); exact IH].
    destruct (H k g q Q) as (more & inv & sq & win & svc & data & -> & W & N). rewrite segment_head. destruct (segment_read win svc data (Some sq) W N) as (x & d & ->). specialize (IH (S k) (CDec x)). destruct (rp_loop n _ _ _ _ _); exact IH.
  - unfold ReadMultiProperty. destruct (ev_id e); [|discriminate]. destruct (dv_maxapdu dev =? 0); [discriminate|]. destruct (enc_NPDU _ _); [|discriminate]. destruct (enc_ReadMultipleProperty _ _ _) as [[en [x|]]|]; try discriminate. destruct (_ <? _); [discriminate|].
    generalize CNoData. generalize 0%nat. induction maxReattempt as [|n IH]; intros k l; [discriminate|]. cbn [rpm_loop]. unfold exchange. destruct (send_dgram _ (ebuf en) None) as [g|].
    2:{ specialize (IH (S k) CSend). destruct (rpm_loop _ n _ _ _ _ _); exact IH. }
    destruct (at_sent (ev_att e k g)); [|specialize (IH (S k) CSend); destruct (rpm_loop _ n _ _ _ _ _); exact IH].
    destruct (at_reply (ev_att e k g)) as [q|] eqn:Q; [|specialize (IH (S k) CTimeout); destruct (rpm_loop _ n _ _ _ _ _); exact IH].
    destruct (H k g q Q) as (more & inv & sq & win & svc & data & -> & W & N). rewrite segment_head. pose proof (segment_multi fuel win svc data (Some sq) W N) as M. destruct (dec_ReadMultiplePropertyAck fuel _) as [[o [x|]] d| |]; try contradiction; try discriminate.
    specialize (IH (S k) (CDec x)). destruct (rpm_loop _ n _ _ _ _ _); exact IH.
Qed.

(** ** Which object an answer is about *)
Lemma about : forall o p idx rest q out d, valid_oid o -> in_u32 p -> in_u32 idx ->
  dec_ReadProperty (mkDec (spec_reference o p idx ++ spec_open 3 ++ rest) q None) = Val (Some out, None) d -> exists v, out = mkPD (mkObj [] [] o [mkProp p idx v 0]).
Proof.
  intros o p idx tail q out d Ho Hp Hi. unfold dec_ReadProperty, dec_ReadProperty_fuel.
  pose proof (ProofsServices.reference_len o p idx Ho Hp) as HL. unfold dlen at 1. cbn [dbuf].
  set (fuel := S (length (spec_reference o p idx ++ spec_open 3 ++ tail))).
  replace (zlen (spec_reference o p idx ++ spec_open 3 ++ tail) <? 7) with false.
  2:{ symmetry. unfold zlen in *. rewrite app_length. lia. }
  unfold spec_reference, spec_ctx_oid, spec_ctx_unsigned at 1. rewrite <- !app_assoc.
  rewrite tagNumber_short by lia. cbn [Z.eqb negb]. rewrite tag_meta_ctx by lia. cbn [Z.eqb Pos.eqb negb].
  rewrite dec_objectId_spec by assumption.
  pose proof (ctx1_facts 1 p ltac:(lia) Hp) as Hu.
  rewrite tagNumber_short by lia. cbn [Z.eqb Pos.eqb negb].
  rewrite dec_value_short by lia. unfold dec_enumerated. rewrite dec_unsigned_spec by assumption.
  assert (FIN : forall d0, obind (readprop_loop fuel [] d0) (fun r d1 => match r with (l, Some err) => Val (None, Some err) d1 | (l, None) =>
      match derr d1 with Some err => Val (None, Some err) d1 | None => Val (Some (mkPD (mkObj [] [] o [mkProp p idx (collapse l) 0])), None) d1 end end) = Val (Some out, None) d -> exists v, out = mkPD (mkObj [] [] o [mkProp p idx v 0])).
  { intros d0 E. destruct (readprop_loop fuel [] d0) as [[l [x|]] d1| |]; cbn [obind] in E; try discriminate E. destruct (derr d1); [discriminate E|]. injection E as <- _. eexists. reflexivity. }
  unfold spec_index, whole. destruct (idx =? 4294967295) eqn:E.
  - cbn [app]. unfold dlen at 1. cbn [dbuf].
    replace (zlen (spec_open 3 ++ tail) =? 0) with false by (symmetry; unfold zlen; rewrite app_length; cbn [length spec_open Z.ltb Z.compare Pos.compare Pos.compare_cont]; lia).
    cbn [negb]. rewrite tagNumber_open by lia.
    cbn [Z.leb Z.compare Pos.compare Pos.compare_cont]. rewrite orb_true_r. rewrite dec_value_open by lia.
    cbn [Z.eqb Pos.eqb]. apply Z.eqb_eq in E. subst idx. apply FIN.
  - unfold spec_ctx_unsigned. rewrite <- !app_assoc. unfold dlen at 1. cbn [dbuf].
    pose proof (ctx1_facts 2 idx ltac:(lia) Hi) as Hui.
    replace (zlen (spec_tag 1 2 (usize idx) ++ spec_unsigned idx ++ spec_open 3 ++ tail) =? 0) with false.
    2:{ symmetry. unfold zlen. rewrite app_length. pose proof (spec_tag_len 1 2 (usize idx)). unfold zlen in *. lia. }
    cbn [negb]. rewrite tagNumber_short by lia.
    cbn [Z.leb Z.compare Pos.compare Pos.compare_cont]. rewrite orb_true_r. rewrite dec_value_short by lia.
    cbn [Z.eqb Pos.eqb]. rewrite dec_unsigned_spec by assumption.
    replace (0 <? dlen _) with true by (symmetry; unfold dlen, zlen; cbn [dbuf spec_open Z.ltb Z.compare Pos.compare Pos.compare_cont app length]; lia).
    rewrite tagNumber_open by lia. cbn [Z.eqb Pos.eqb]. apply FIN.
Qed.
Lemma says_which : forall e me dev rp tr out, ReadProperty e me dev rp = (tr, COk out) ->
  exists x, answered_with e x /\ forall t inv svc o p idx rest, ack_head t -> valid_oid o -> in_u32 p -> in_u32 idx ->
    x = t :: inv :: svc :: spec_reference o p idx ++ spec_open 3 ++ rest -> exists v, out = answer o p idx v.
Proof.
  intros e me dev rp tr out. unfold ReadProperty. destruct (ev_id e); [|discriminate]. destruct (enc_NPDU _ _); [|discriminate]. destruct (enc_ReadProperty _ _ _) as [[en [x|]]|]; try discriminate.
  generalize CNoData. generalize 0%nat. revert tr. induction retryCount as [|n IH]; intros tr k l; [discriminate|]. cbn [rp_loop]. unfold exchange.
  assert (R : forall tr0 x, (let '(tr', r') := rp_loop n (S k) e (addr_SetLength (dv_addr dev)) (ebuf en) x in (tr0 ++ tr', r')) = (tr, COk out) -> exists x, answered_with e x /\ forall t inv svc o p idx rest, ack_head t -> valid_oid o -> in_u32 p -> in_u32 idx ->
    x = t :: inv :: svc :: spec_reference o p idx ++ spec_open 3 ++ rest -> exists v, out = answer o p idx v).
  { intros tr0 x E. destruct (rp_loop n (S k) e _ _ x) as [tr1 r1] eqn:L. injection E as _ ->. exact (IH _ _ _ L). }
  destruct (send_dgram _ (ebuf en) None) as [g|]; [|apply R].
  destruct (at_sent (ev_att e k g)) eqn:S; [|apply R]. destruct (at_reply (ev_att e k g)) as [[b|c x]|] eqn:Q; [|discriminate|apply R].
  destruct (check_apdu (newDecoder b)) as [[x|] d] eqn:C; [apply R|]. destruct (dec_ReadProperty d) as [[[o|] [x|]] d'| |] eqn:D; try apply R; try discriminate.
  destruct (derr d'); [discriminate|]. intros E. injection E as _ ->. exists b. split; [exists k, g; auto|]. intros t inv svc o p idx rest T Ho Hp Hi ->. rewrite (check_head _ _ _ _ T) in C. injection C as <-.
  destruct (about _ _ _ _ _ _ _ Ho Hp Hi D) as (v & ->). exists v. reflexivity.
Qed.
(** whatever was asked for, an answer about anything is taken *)
Lemma any_answer : forall e me dev ip port o p idx o' p' idx' vs id t svc inv, ev_id e = Some id -> is_byte id -> routable dev ip port -> addr_ok (addr_SetLength (dv_addr dev)) -> opt_addr_ok me ->
  valid_oid o -> valid_property p -> in_u32 idx -> valid_oid o' -> in_u32 p' -> in_u32 idx' -> Forall supported vs -> ack_head t ->
  let dest := addr_SetLength (dv_addr dev) in
  let g := mkDgram ip port (spec_bvlc (send_func dest None) (spec_npdu (request_npdu dest me) ++ spec_read_request id o p idx)) in
  at_sent (ev_att e 0 g) = true ->
  at_reply (ev_att e 0 g) = Some (PBytes (t :: inv :: svc :: spec_reference o' p' idx' ++ spec_open 3 ++ flat_map spec_sent vs ++ spec_close 3)) ->
  ReadProperty e me dev (request o p idx) = ([g], COk (answer o' p' idx' (one_or_list (map shown vs)))).
Proof.
  intros e me dev ip port o p idx o' p' idx' vs id t svc inv Hid Hb Hr Ha Hm Ho Hp Hi Ho' Hp1 Hi' Hv T dest g Hs Hre.
  unfold ReadProperty. rewrite Hid. destruct (header_ok dest me Ha Hm) as [EH HO]. fold dest. rewrite EH.
  replace (u8 id) with id by (unfold u8; unfold is_byte in Hb; lia).
  rewrite enc_read by assumption. cbn [ebuf].
  assert (Hp' : in_u32 p) by (red in Hp; red; lia).
  assert (HL : zlen (spec_npdu (request_npdu dest me) ++ spec_read_request id o p idx) <= 65531).
  { rewrite zlen_app. pose proof (npdu_len _ HO). unfold spec_read_request. rewrite zlen_app. pose proof (reference_len o p idx Hp' Hi).
    change (zlen (spec_request id 12)) with 4. lia. }
  assert (EX : exchange e 0 dest (spec_npdu (request_npdu dest me) ++ spec_read_request id o p idx) = ([g], inr (PBytes (t :: inv :: svc :: spec_reference o' p' idx' ++ spec_open 3 ++ flat_map spec_sent vs ++ spec_close 3)))).
  { pose proof (exchange_answered e 0 dest (spec_npdu (request_npdu dest me) ++ spec_read_request id o p idx) ip port (PBytes (t :: inv :: svc :: spec_reference o' p' idx' ++ spec_open 3 ++ flat_map spec_sent vs ++ spec_close 3))) as X.
    cbv zeta in X. rewrite frame_small in X by exact HL. apply X; try assumption. unfold dest. rewrite udp_setlength. exact Hr. }
  unfold retryCount. cbn [rp_loop]. rewrite EX, (check_head _ _ _ _ T).
  destruct (read_ack_body o' p' idx' vs 63 (Some svc) Ho' Hp1 Hi' Hv) as (d2 & E2 & E3). change (spec_close 3) with [63]. rewrite E2, E3. reflexivity.
Qed.
