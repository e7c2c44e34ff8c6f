(** The service properties in the form stated in PropServices.v. *)
From Coq Require Import Lia ZifyBool ZifyNat.
From Verif Require Import ModelClient SpecWire SpecCodec SpecLayers SpecServices SpecObs
  ProofsWire ProofsTag ProofsApp ProofsBits ProofsTrunc ProofsCodec ProofsLayers ProofsLayerProps ProofsServices ProofsMulti ProofsTerm.
Ltac Zify.zify_post_hook ::= Z.div_mod_to_equations.


Lemma check_ack : forall inv svc w, check_apdu (newDecoder (spec_complex_ack inv svc ++ w)) = (None, mkDec w (Some svc) None).
Proof.
  intros. unfold check_apdu, newDecoder, spec_complex_ack. rewrite dec_apdu_ack_spec by auto. reflexivity.
Qed.

Lemma read_request : forall inv o p idx, is_byte inv -> valid_oid o -> valid_property p -> in_u32 idx ->
  enc_ReadProperty inv (request o p idx) newEncoder = ROk (mkEnc (spec_read_request inv o p idx) None, None)
  /\ exists a d1 d2, dec_APDU (newDecoder (spec_read_request inv o p idx)) = ((a, None), d1)
     /\ p_type a = 0 /\ p_invoke a = inv /\ p_service a = 12 /\ p_seg a = false
     /\ dec_ReadProperty (newDecoder (p_raw a)) = Val (Some (request o p idx), None) d2.
Proof.
  intros inv o p idx Hv Ho Hp Hi. split.
  - unfold enc_ReadProperty, newEncoder, request. rewrite enc_request by (try assumption; unfold is_byte, svcReadProperty; lia).
    rewrite header_valid by assumption. reflexivity.
  - unfold spec_read_request, spec_request, newDecoder.
    destruct (dec_apdu_confirmed_spec false false false 5 inv 0 0 12 (spec_reference o p idx) None) as [q E].
    destruct (read_reference o p idx None Ho) as (d2 & E2 & _); [red in Hp; red; lia|assumption|].
    do 3 eexists. split; [exact E|]. cbn [p_type p_invoke p_service p_seg p_raw]. repeat split. exact E2.
Qed.

Lemma read_ack : forall inv o p idx vs, valid_oid o -> in_u32 p -> in_u32 idx -> Forall supported vs ->
  rp_accepts (spec_read_ack inv o p idx vs) (answer o p idx (one_or_list (map shown vs))).
Proof.
  intros inv o p idx vs Ho Hp Hi Hv. unfold spec_read_ack.
  destruct (read_ack_body o p idx vs (3 * 16 + 15) (Some 12) Ho Hp Hi Hv) as (d & E & Ed).
  exists (mkDec (spec_reference o p idx ++ spec_open 3 ++ flat_map spec_sent vs ++ spec_close 3) (Some 12) None), d.
  rewrite check_ack. split; [reflexivity|]. split; [exact E|exact Ed].
Qed.

Lemma loop_one : forall fuel bs v c p, (2 <= fuel)%nat -> bs <> [] ->
  (forall rest p, dec_AppData (mkDec (bs ++ rest) p None) = Val (v, None) (mkDec rest (Some (last bs 0)) None)) ->
  exists p', readprop_loop fuel [] (mkDec (bs ++ [c]) p None) = Val ([v], None) (mkDec [c] p' None).
Proof.
  intros fuel bs v c p Hf Hb HD. destruct fuel as [|[|fuel]]; [lia|lia|]. cbn [readprop_loop].
  replace (1 <? dlen _) with true.
  2:{ symmetry. unfold dlen, zlen. cbn [dbuf]. rewrite app_length. destruct bs; [congruence|]. cbn [length]. lia. }
  rewrite HD. cbn [obind]. change (1 <? dlen _) with false. eexists. reflexivity.
Qed.

Lemma enc_ack : forall inv o p idx v, is_byte inv -> valid_oid o -> valid_property p -> in_u32 idx -> writable v ->
  enc_ReadPropertyAck inv (answer o p idx v) newEncoder = ROk (mkEnc (lib_ack inv o p idx v) None, None).
Proof.
  intros inv o p idx v Hb Ho Hp Hi Hv. unfold enc_ReadPropertyAck, answer. cbn [pd_object o_props pr_data].
  unfold newEncoder. rewrite enc_apdu_complex_spec by (try assumption; unfold is_byte, svcReadProperty; lia). cbn [fst].
  rewrite header_valid by assumption. cbn [rbind].
  destruct (open_tag_enc 3 (([] ++ spec_complex_ack inv svcReadProperty) ++ spec_reference o (pr_type (mkProp p idx v 0)) (pr_index (mkProp p idx v 0))) ltac:(lia)) as [E _].
  rewrite E. rewrite enc_app_written by assumption. cbn [rbind]. change (u8 (3 + 1)) with 4.
  match goal with |- context [closingTag 4 (mkEnc ?b None)] => destruct (open_tag_enc 4 b ltac:(lia)) as [_ E2]; rewrite E2 end.
  cbn [eerr pr_type pr_index]. unfold lib_ack. rewrite <- !app_assoc. reflexivity.
Qed.

(** what a written value is read as *)
Definition reread (v : value) : value := match v with VInt n => VInt (int_reread n) | _ => as_read v end.
Lemma dec_written : forall v, writable v -> forall rest p,
  dec_AppData (mkDec (app_written v ++ rest) p None) = Val (reread v, None) (mkDec rest (Some (last (app_written v) 0)) None).
Proof.
  intros v Hw rest p. destruct v; simpl in Hw; try contradiction; cbn [reread as_read].
  3: exact (dec_app_readable (VUint n) rest p Hw).
  3: apply dec_int_written; exact Hw.
  4: apply dec_double_written; exact Hw.
  - exact (dec_app_readable VNull rest p I).
  - exact (dec_app_readable (VBool b) rest p I).
  - exact (dec_app_readable (VReal bits) rest p Hw).
  - exact (dec_app_readable (VString l) rest p Hw).
  - exact (dec_app_readable (VEnum n) rest p Hw).
  - exact (dec_app_readable (VOid o) rest p Hw).
Qed.
Lemma app_written_ne : forall v, writable v -> app_written v <> [].
Proof.
  intros v Hw E. assert (A : forall c n l w, spec_tag c n l ++ w <> []).
  { intros c n l w F. apply app_eq_nil in F. destruct F as [F _]. revert F. apply spec_tag_nonempty. }
  destruct v; simpl in Hw; try contradiction; cbn [app_written spec_app] in E;
  first [exact (A _ _ _ _ E) | exact (spec_tag_nonempty _ _ _ E)].
Qed.
Lemma reread_same : forall v, writable v ->
  (forall n, v = VInt n -> ~ (128 <= n < 256 \/ 32768 <= n < 65536)) -> reread v = as_read v.
Proof.
  intros v Hw H. destruct v; try reflexivity. cbn [reread as_read]. f_equal. apply int_reread_iff; [exact Hw|]. apply H. reflexivity.
Qed.
Lemma lib_ack_read : forall inv o p idx v, is_byte inv -> valid_oid o -> valid_property p -> in_u32 idx -> writable v ->
  rp_accepts (lib_ack inv o p idx v) (answer o p idx (reread v)).
Proof.
  intros inv o p idx v Hb Ho Hp Hi Hv. unfold lib_ack.
  assert (Hp' : in_u32 p) by (red in Hp; red; lia).
  exists (mkDec (spec_reference o p idx ++ spec_open 3 ++ app_written v ++ spec_close 4) (Some 12) None).
  rewrite check_ack.
  assert (HH : exists d2, dec_ReadProperty (mkDec (spec_reference o p idx ++ spec_open 3 ++ app_written v ++ spec_close 4) (Some 12) None)
    = Val (Some (answer o p idx (reread v)), None) d2 /\ derr d2 = None).
  { unfold dec_ReadProperty, dec_ReadProperty_fuel.
    pose proof (reference_len o p idx Ho Hp') as HL. unfold dlen at 1. cbn [dbuf].
    set (tail := app_written v ++ spec_close 4).
    set (fuel := S (length (spec_reference o p idx ++ spec_open 3 ++ tail))).
    pose proof (app_written_ne v Hv) as Hne.
    assert (Hfuel : (2 <= fuel)%nat) by (unfold fuel, zlen in *; rewrite app_length; lia).
    replace (zlen (spec_reference o p idx ++ spec_open 3 ++ tail) <? 7) with false.
    2:{ symmetry. unfold zlen in *. rewrite app_length. lia. }
    unfold spec_reference, spec_ctx_oid, spec_ctx_unsigned at 1. rewrite <- !app_assoc.
    rewrite tagNumber_short by lia. cbn [Z.eqb negb]. rewrite tag_meta_ctx by lia. cbn [Z.eqb Pos.eqb negb].
    rewrite dec_objectId_spec by assumption.
    pose proof (ctx1_facts 1 p ltac:(lia) Hp') as Hu.
    rewrite tagNumber_short by lia. cbn [Z.eqb Pos.eqb negb].
    rewrite dec_value_short by lia. unfold dec_enumerated. rewrite dec_unsigned_spec by assumption.
    assert (Ht : 1 <= zlen tail) by (unfold tail, zlen; rewrite app_length; simpl; lia).
    unfold spec_index, whole. destruct (idx =? 4294967295) eqn:E.
    - cbn [app]. unfold dlen at 1. cbn [dbuf].
      replace (zlen (spec_open 3 ++ tail) =? 0) with false by (symmetry; unfold zlen; rewrite app_length; cbn [length spec_open Z.ltb Z.compare Pos.compare Pos.compare_cont]; lia).
      cbn [negb]. rewrite tagNumber_open by lia.
      cbn [Z.leb Z.compare Pos.compare Pos.compare_cont]. rewrite orb_true_r. rewrite dec_value_open by lia.
      cbn [Z.eqb Pos.eqb].
      destruct (loop_one fuel (app_written v) (reread v) 79 (Some (last (spec_open 3) 0)) Hfuel Hne (dec_written v Hv)) as [p' EL].
      change (app_written v ++ [79]) with tail in EL.
      rewrite EL. cbn [obind derr app]. apply Z.eqb_eq in E. subst idx. eexists. split; reflexivity.
    - unfold spec_ctx_unsigned. rewrite <- !app_assoc. unfold dlen at 1. cbn [dbuf].
      pose proof (ctx1_facts 2 idx ltac:(lia) Hi) as Hui.
      replace (zlen (spec_tag 1 2 (usize idx) ++ spec_unsigned idx ++ spec_open 3 ++ tail) =? 0) with false.
      2:{ symmetry. unfold zlen. rewrite app_length. pose proof (spec_tag_len 1 2 (usize idx)). unfold zlen in *. lia. }
      cbn [negb]. rewrite tagNumber_short by lia.
      cbn [Z.leb Z.compare Pos.compare Pos.compare_cont]. rewrite orb_true_r. rewrite dec_value_short by lia.
      cbn [Z.eqb Pos.eqb]. rewrite dec_unsigned_spec by assumption.
      replace (0 <? dlen _) with true.
      2:{ symmetry. unfold dlen, zlen in *. cbn [dbuf]. rewrite app_length. lia. }
      rewrite tagNumber_open by lia. cbn [Z.eqb Pos.eqb].
      destruct (loop_one fuel (app_written v) (reread v) 79 (Some (last (spec_open 3) 0)) Hfuel Hne (dec_written v Hv)) as [p' EL].
      change (app_written v ++ [79]) with tail in EL.
      rewrite EL. cbn [obind derr app]. eexists. split; reflexivity. }
  destruct HH as (d2 & E & Ed). exists d2. split; [reflexivity|]. split; [exact E|exact Ed].
Qed.
Lemma ack_round : forall inv o p idx v, is_byte inv -> valid_oid o -> valid_property p -> in_u32 idx -> writable v ->
  (forall n, v = VInt n -> ~ (128 <= n < 256 \/ 32768 <= n < 65536)) ->
  exists bs, enc_ReadPropertyAck inv (answer o p idx v) newEncoder = ROk (mkEnc bs None, None)
  /\ rp_accepts bs (answer o p idx (as_read v)).
Proof.
  intros inv o p idx v Hb Ho Hp Hi Hv Hn. exists (lib_ack inv o p idx v). split; [apply enc_ack; assumption|].
  rewrite <- reread_same by assumption. apply lib_ack_read; assumption.
Qed.
Lemma ack_nonstandard : forall inv o p idx v, lib_ack inv o p idx v <> spec_read_ack inv o p idx [SVal v].
Proof.
  intros inv o p idx v E. unfold lib_ack, spec_read_ack in E. cbn [flat_map spec_sent] in E. rewrite app_nil_r in E.
  do 2 (apply app_inv_head in E). apply (f_equal (@rev Z)) in E. rewrite !rev_app_distr in E. cbn in E. congruence.
Qed.
Lemma ack_never_standard : forall inv o p idx v, is_byte inv -> valid_oid o -> valid_property p -> in_u32 idx -> writable v ->
  exists bs, enc_ReadPropertyAck inv (answer o p idx v) newEncoder = ROk (mkEnc bs None, None)
  /\ bs <> spec_read_ack inv o p idx [SVal v]
  /\ (written_standard v -> exists body, bs = body ++ [79] /\ spec_read_ack inv o p idx [SVal v] = body ++ [63]).
Proof.
  intros inv o p idx v Hb Ho Hp Hi Hv. exists (lib_ack inv o p idx v).
  split; [apply enc_ack; assumption|]. split; [apply ack_nonstandard|].
  intro Hs. assert (Ew : app_written v = spec_app v).
  { pose proof (proj2 (written_iff v Hv) Hs) as E. unfold writes, newEncoder in E. rewrite enc_app_written in E by assumption.
    cbn [app] in E. congruence. }
  exists (spec_complex_ack inv 12 ++ spec_reference o p idx ++ spec_open 3 ++ spec_app v).
  unfold lib_ack, spec_read_ack. cbn [flat_map spec_sent]. rewrite Ew, app_nil_r, <- !app_assoc. split; reflexivity.
Qed.

(** ** C27 *)
Lemma check_apdu_drained : forall b, drained (snd (check_apdu (newDecoder b))).
Proof.
  intro b. unfold check_apdu.
  assert (H : drained (snd (dec_APDU (newDecoder b)))).
  { assert (HS : shrinks (newDecoder b) (snd (dec_APDU (newDecoder b)))).
    { unfold dec_APDU. shrink1. destruct (_ || _); [do 2 shrink1; chain|].
      destruct (_ =? pduUnconfirmed); [do 2 shrink1; chain|].
      destruct (_ =? pduConfirmed).
      { do 2 shrink1. destruct (checkMask z apduMaskSegmented); [do 3 shrink1|shrink1]; destruct (_ <? _)%nat; try shrink1; chain. }
      destruct (_ =? pduSegmentAck); [chain|].
      destruct (_ =? pduError).
      { unfold dec_apduError. do 2 shrink1.
        match goal with |- context [tagNumber ?d] => pose proof (tagNumber_shrinks d) as T1; destruct (tagNumber d) as [[? mm1] dd1]; cbn [snd] in T1 end.
        destruct (meta_isOpening mm1).
        - match goal with |- context [tagNumberAndValue ?d] => pose proof (tnv_shrinks d) as T2; destruct (tagNumberAndValue d) as [[[? ?] vv2] dd2]; cbn [snd] in T2 end.
          pose proof (dec_unsigned_shrinks vv2 dd2) as T3. destruct (dec_unsigned vv2 dd2) as [? dd3]. cbn [snd] in T3.
          match goal with |- context [tagNumberAndValue ?d] => pose proof (tnv_shrinks d) as T4; destruct (tagNumberAndValue d) as [[[? ?] vv4] dd4]; cbn [snd] in T4 end.
          pose proof (dec_unsigned_shrinks vv4 dd4) as T5. destruct (dec_unsigned vv4 dd4) as [? dd5]. cbn [snd] in T5.
          pose proof (tagNumber_shrinks dd5) as T6. destruct (tagNumber dd5) as [[? mm6] dd6]. cbn [snd] in T6.
          destruct (negb (meta_isClosing mm6)); chain.
        - pose proof (tnv_shrinks dd1) as T2. destruct (tagNumberAndValue dd1) as [[[? ?] vv2] dd2]. cbn [snd] in T2.
          pose proof (tnv_shrinks dd2) as T3. destruct (tagNumberAndValue dd2) as [[[? ?] vv3] dd3]. cbn [snd] in T3. chain. }
      destruct (_ =? pduReject); [chain|]. destruct (_ =? pduAbort); chain. }
    apply HS. left. reflexivity. }
  destruct (dec_APDU (newDecoder b)) as [[a [err|]] d]; [exact H|]. destruct (_ || _); exact H.
Qed.
Lemma read_terminates : forall b, dec_ReadProperty (newDecoder b) <> Fuel
  /\ dec_ReadProperty (snd (check_apdu (newDecoder b))) <> Fuel.
Proof.
  intro b. split; apply dec_ReadProperty_terminates; [left; reflexivity|apply check_apdu_drained].
Qed.

Lemma enc_read_props : forall ps b, Forall (fun p => in_u32 (fst p) /\ in_u32 (snd p)) ps ->
  enc_properties false (map (fun p => mkProp (fst p) (snd p) VNil 0) ps) (mkEnc b None)
  = ROk (mkEnc (b ++ flat_map (fun p => spec_ctx_unsigned 0 (fst p) ++ spec_index 1 (snd p)) ps) None).
Proof.
  induction ps as [|[p i] ps IH]; intros b H; [cbn; rewrite app_nil_r; reflexivity|].
  apply Forall_cons_iff in H. destruct H as [[Hp Hi] H]. cbn [fst snd] in *.
  cbn [map enc_properties flat_map fst snd]. unfold enc_property. cbn [pr_type pr_index]. unfold contextEnumerated.
  rewrite enc_ctx_unsigned_spec by (try exact Hp; lia). rewrite enc_index by (try assumption; lia). cbn [rbind].
  rewrite IH by assumption. rewrite <- !app_assoc. reflexivity.
Qed.
Lemma readmulti_request : forall inv xs, is_byte inv ->
  Forall (fun x => valid_oid (fst x) /\ Forall (fun p => in_u32 (fst p) /\ in_u32 (snd p)) (snd x)) xs ->
  enc_ReadMultipleProperty inv (mkMPD (map read_object xs)) newEncoder
  = ROk (mkEnc (spec_readmulti_request inv xs) None, None).
Proof.
  intros inv xs Hb H. unfold enc_ReadMultipleProperty, newEncoder, spec_readmulti_request.
  rewrite enc_request by (try assumption; unfold is_byte, svcReadPropMultiple; lia). cbn [app md_objects]. change svcReadPropMultiple with 14.
  assert (HO : forall b, enc_objects false (map read_object xs) (mkEnc b None)
     = ROk (mkEnc (b ++ flat_map (fun x => spec_read_spec (fst x) (snd x)) xs) None)).
  { induction H as [|[o ps] xs [Ho Hp] Hxs IH]; intro b; [cbn; rewrite app_nil_r; reflexivity|].
    cbn [fst snd] in *. cbn [map enc_objects flat_map read_object o_id o_props fst snd].
    rewrite enc_ctx_oid by (try assumption; lia).
    destruct (open_tag_enc 1 (b ++ spec_ctx_oid 0 o) ltac:(lia)) as [E _]. rewrite E.
    rewrite enc_read_props by assumption. cbn [rbind].
    match goal with |- context [closingTag 1 (mkEnc ?b None)] => destruct (open_tag_enc 1 b ltac:(lia)) as [_ E2]; rewrite E2 end.
    rewrite IH. unfold spec_read_spec. rewrite <- !app_assoc. reflexivity. }
  rewrite HO. reflexivity.
Qed.

(** ** C29, C30 *)
Lemma readmulti_ack : forall inv xs, Forall access_ok xs ->
  rpm_accepts (spec_readmulti_ack inv xs) (map shown_access xs).
Proof.
  intros inv xs H. unfold spec_readmulti_ack. eexists. rewrite check_ack. split; [reflexivity|].
  intros fuel Hf. rewrite app_length in Hf. cbn [length spec_complex_ack] in Hf. unfold dec_ReadMultiplePropertyAck.
  destruct (objects_ok xs fuel (mkOid 0 0) [] (Some 14) H) as [p' E]; [lia|]. rewrite E. cbn [obind derr app]. eexists. reflexivity.
Qed.

Lemma vals_cut : forall vs f obj pt objs arr p, Forall supported vs ->
  (let '((tag, meta), d) := tagNumber (mkDec (flat_map spec_sent vs) p None) in
   if meta_isClosing meta && (tag =? 4) then Val (objs, arr, None) d
   else val_loop f obj pt tag meta objs arr d) = Fuel.
Proof.
  induction vs as [|v vs IH]; intros f obj pt objs arr p H.
  - cbn. apply val_loop_diverges.
  - apply Forall_cons_iff in H. destruct H as [Hv H]. cbn [flat_map].
    destruct (sent_split v (flat_map spec_sent vs) p Hv) as (num & meta & d1 & ET & Hx & Hc & HA). rewrite ET, Hc. cbn [andb].
    destruct f as [|f]; [reflexivity|]. cbn [val_loop]. rewrite Hx. destruct (dec_value meta d1) as [len d2]. rewrite HA. cbn [obind].
    apply IH. assumption.
Qed.
Lemma cut_hangs : forall inv o p vs, valid_oid o -> in_u32 p -> vs <> [] -> Forall supported vs -> rpm_hangs (cut_ack inv o p vs).
Proof.
  intros inv o p vs Ho Hp Hne Hv. unfold rpm_hangs, cut_ack. eexists. rewrite check_ack. split; [reflexivity|].
  intro fuel. unfold dec_ReadMultiplePropertyAck.
  destruct fuel as [|fuel]; [reflexivity|]. cbn [obj_loop derr].
  replace (0 <? dlen _) with true.
  2:{ symmetry. unfold dlen, zlen, spec_ctx_oid. cbn [dbuf]. rewrite !app_length. pose proof (spec_tag_len 1 0 4). unfold zlen in *. lia. }
  unfold spec_ctx_oid, spec_ctx_unsigned. rewrite <- !app_assoc.
  rewrite tag_round by lia. cbn [Z.eqb negb]. rewrite tag_meta_ctx by lia. cbn [Z.eqb Pos.eqb negb].
  rewrite dec_objectId_spec by assumption. rewrite tagNumber_open by lia. cbn [Z.eqb Pos.eqb negb].
  destruct (open_meta_facts 1 ltac:(lia)) as (_ & _ & Hop & _). rewrite Hop. cbn [negb].
  pose proof (usize_bound _ Hp) as Hu. rewrite tag_round by lia. cbn [Z.eqb Pos.eqb negb].
  destruct fuel as [|fuel]; [reflexivity|]. cbn [prop_loop].
  replace (0 <? dlen _) with true.
  2:{ symmetry. unfold dlen, zlen. cbn [dbuf]. rewrite app_length. unfold spec_unsigned. rewrite octets_length. lia. }
  destruct (tag_meta_notclosing 1 2 (usize p) ltac:(lia) ltac:(lia) ltac:(lia)) as [Hnc _]. rewrite Hnc.
  rewrite tag_meta_ctx by lia. cbn [Z.eqb Pos.eqb negb andb].
  unfold dec_enumerated. rewrite dec_unsigned_spec by assumption.
  rewrite tagNumber_open by lia. cbn [Z.eqb Pos.eqb andb].
  destruct (open_meta_facts 4 ltac:(lia)) as (_ & _ & Hop4 & _). rewrite Hop4.
  destruct vs as [|v vs]; [congruence|].
  pose proof (vals_cut (v :: vs) fuel (mkObj [] [] o []) p [] [] (Some (last (spec_open 4) 0)) Hv) as HC.
  apply Forall_inv in Hv. cbn [flat_map] in HC |- *.
  destruct (sent_split v (flat_map spec_sent vs) (Some (last (spec_open 4) 0)) Hv) as (num & meta & d1 & ET & Hx & Hc & HA).
  destruct (sent_tag v Hv) as (num' & len & w & Es & Hn & Hl).
  assert (Ed : derr d1 = None).
  { rewrite Es, <- app_assoc in ET.
    destruct (tagNumber_spec 0 num' len (w ++ flat_map spec_sent vs) (Some (last (spec_open 4) 0)) ltac:(lia) ltac:(lia) ltac:(lia)) as (q & E2 & _).
    rewrite E2 in ET. inversion ET. reflexivity. }
  rewrite ET in HC |- *. rewrite Hc in HC. cbn [andb] in HC. rewrite Ed, HC. reflexivity.
Qed.

Lemma point_binary : forall o p idx v prio, pointTypeBOBV (write_of o p idx v prio) = binary_pv o p.
Proof. intros. unfold pointTypeBOBV, write_of, binary_pv. cbn. rewrite (orb_comm (oid_type o =? 5)). reflexivity. Qed.
Lemma enc_lib_value : forall v bin b, writable v -> (bin = true -> v = VNull \/ exists n, v = VUint n) ->
  enc_AppData v bin (mkEnc b None) = ROk (mkEnc (b ++ lib_value bin v) None).
Proof.
  intros v [] b Hw Hb.
  - destruct (Hb eq_refl) as [->|[n ->]].
    + exact (enc_app_written VNull b I).
    + cbn [enc_AppData lib_value spec_app]. unfold enc_enumerated. rewrite enc_uint_gen by (try exact Hw; unfold tagEnumerated; lia). reflexivity.
  - rewrite enc_app_written by assumption. destruct v; reflexivity.
Qed.
Lemma enc_priority : forall tag prio b, 0 <= tag < 256 -> is_byte prio ->
  (if negb (prio =? 0) then contextUnsigned tag (u32 prio) (mkEnc b None) else mkEnc b None) = mkEnc (b ++ spec_priority tag prio) None.
Proof.
  intros tag prio b Ht Hp. unfold spec_priority, is_byte in *. destruct (prio =? 0) eqn:E; cbn [negb]; [rewrite app_nil_r; reflexivity|].
  rewrite u32_small by lia. apply enc_ctx_unsigned_spec; lia.
Qed.
Lemma enc_write : forall inv o p idx v prio hdr, is_byte inv -> valid_oid o -> valid_property p -> in_u32 idx -> is_byte prio -> writable v ->
  (binary_pv o p = true -> v = VNull \/ exists n, v = VUint n) ->
  enc_WriteProperty inv (write_of o p idx v prio) (mkEnc hdr None) = ROk (mkEnc (hdr ++ lib_write inv o p idx v prio) None, None).
Proof.
  intros inv o p idx v prio hdr Hb Ho Hp Hi Hpr Hv Hbin. unfold enc_WriteProperty.
  rewrite enc_request by (try assumption; unfold is_byte, svcWriteProperty; lia). rewrite point_binary. unfold write_of.
  rewrite header_valid by assumption. cbn [rbind pd_object o_props pr_data pr_prio pr_type pr_index].
  match goal with |- context [openingTag 3 (mkEnc ?b None)] => destruct (open_tag_enc 3 b ltac:(lia)) as [E _]; rewrite E end.
  rewrite enc_lib_value by assumption. cbn [rbind].
  match goal with |- context [closingTag 3 (mkEnc ?b None)] => destruct (open_tag_enc 3 b ltac:(lia)) as [_ E2]; rewrite E2 end.
  change (u8 (3 + 1)) with 4. rewrite enc_priority by (try assumption; lia). cbn [eerr].
  unfold lib_write. rewrite <- !app_assoc. reflexivity.
Qed.
(** the octets of a value are the standard's exactly when ... *)
Lemma lib_value_standard : forall o p v, writable v -> (binary_pv o p = true -> v = VNull \/ exists n, v = VUint n) ->
  (lib_value (binary_pv o p) v = property_octets o p v <-> written_standard v).
Proof.
  intros o p v Hv Hb.
  assert (A : app_written v = spec_app v <-> written_standard v).
  { rewrite <- written_iff by assumption. unfold writes, newEncoder. rewrite enc_app_written by assumption. cbn [app].
    split; intro E; congruence. }
  destruct v; cbn [lib_value property_octets]; try exact A. destruct (binary_pv o p); cbn [written_standard]; tauto.
Qed.
Lemma write_request_iff : forall inv o p idx v prio, is_byte inv -> valid_oid o -> valid_property p -> in_u32 idx -> is_byte prio -> writable v ->
  (enc_WriteProperty inv (write_of o p idx v prio) newEncoder = ROk (mkEnc (spec_write_request inv o p idx v prio) None, None)
   <-> written_standard v /\ (binary_pv o p = true -> v = VNull \/ exists n, v = VUint n)).
Proof.
  intros inv o p idx v prio Hb Ho Hp Hi Hpr Hv.
  destruct (binary_pv o p) eqn:EB.
  - assert (D : (v = VNull \/ exists n, v = VUint n) \/ ~ (v = VNull \/ exists n, v = VUint n)).
    { destruct v; try (right; intros [D|[? D]]; discriminate D); [left; left; reflexivity|left; right; eexists; reflexivity]. }
    destruct D as [D|D].
    + assert (D2 : binary_pv o p = true -> v = VNull \/ (exists n, v = VUint n)) by (intros; exact D).
      unfold newEncoder. rewrite enc_write by assumption. cbn [app].
      pose proof (lib_value_standard o p v Hv D2) as L.
      split; [|intros [HS _]].
      * intro E. assert (E2 : lib_write inv o p idx v prio = spec_write_request inv o p idx v prio) by congruence.
        split; [|intros; exact D]. apply L. unfold lib_write, spec_write_request in E2.
        do 3 (apply app_inv_head in E2). apply app_inv_tail in E2. exact E2.
      * apply L in HS. unfold lib_write, spec_write_request. rewrite HS. reflexivity.
    + split; [|intros [_ C]; exfalso; exact (D (C eq_refl))].
      intro E. exfalso. unfold enc_WriteProperty in E. unfold newEncoder in E.
      rewrite enc_request in E by (try assumption; unfold is_byte, svcWriteProperty; lia). rewrite point_binary in E. unfold write_of in E.
      rewrite header_valid in E by assumption. cbn [rbind pd_object o_props pr_data pr_prio pr_type pr_index] in E.
      rewrite EB in E. destruct v; try discriminate E; apply D; [left; reflexivity|right; eexists; reflexivity].
  - assert (D2 : binary_pv o p = true -> v = VNull \/ (exists n, v = VUint n)) by (rewrite EB; discriminate).
    unfold newEncoder. rewrite enc_write by assumption. cbn [app].
    pose proof (lib_value_standard o p v Hv D2) as L.
    split; [|intros [HS _]].
    + intro E. assert (E2 : lib_write inv o p idx v prio = spec_write_request inv o p idx v prio) by congruence.
      split; [|discriminate]. apply L. unfold lib_write, spec_write_request in E2.
      do 3 (apply app_inv_head in E2). apply app_inv_tail in E2. exact E2.
    + apply L in HS. unfold lib_write, spec_write_request. rewrite HS. reflexivity.
Qed.

Lemma enc_write_props : forall ws b, Forall writing_ok ws ->
  enc_properties true (map (fun w => mkProp (wt_prop w) (wt_index w) (wt_value w) (wt_prio w)) ws) (mkEnc b None)
  = ROk (mkEnc (b ++ flat_map lib_writing ws) None).
Proof.
  induction ws as [|w ws IH]; intros b H; [cbn; rewrite app_nil_r; reflexivity|].
  apply Forall_cons_iff in H. destruct H as [(Hp & Hi & Hv & Hpr) H].
  cbn [map enc_properties flat_map]. unfold enc_property. cbn [pr_type pr_index pr_data pr_prio]. unfold contextEnumerated.
  rewrite enc_ctx_unsigned_spec by (try exact Hp; lia). rewrite enc_index by (try assumption; lia).
  match goal with |- context [openingTag 2 (mkEnc ?b None)] => destruct (open_tag_enc 2 b ltac:(lia)) as [E _]; rewrite E end.
  rewrite enc_app_written by assumption. cbn [rbind].
  match goal with |- context [closingTag 2 (mkEnc ?b None)] => destruct (open_tag_enc 2 b ltac:(lia)) as [_ E2]; rewrite E2 end.
  rewrite enc_priority by (try assumption; lia). rewrite IH by assumption. unfold lib_writing. rewrite <- !app_assoc. reflexivity.
Qed.
Lemma enc_writemulti : forall inv xs hdr, is_byte inv -> Forall (fun x => valid_oid (fst x) /\ Forall writing_ok (snd x)) xs ->
  enc_WriteMultiProperty inv (mkMPD (map write_object xs)) (mkEnc hdr None)
  = ROk (mkEnc (hdr ++ spec_request inv 16 ++ flat_map lib_write_spec xs) None, None).
Proof.
  intros inv xs hdr Hb H. unfold enc_WriteMultiProperty.
  rewrite enc_request by (try assumption; unfold is_byte, svcWritePropMultiple; lia). cbn [md_objects]. change svcWritePropMultiple with 16.
  assert (HO : forall b, enc_objects true (map write_object xs) (mkEnc b None) = ROk (mkEnc (b ++ flat_map lib_write_spec xs) None)).
  { induction H as [|[o ws] xs [Ho Hw] Hxs IH]; intro b; [cbn; rewrite app_nil_r; reflexivity|].
    cbn [fst snd] in *. cbn [map enc_objects flat_map write_object o_id o_props fst snd].
    rewrite enc_ctx_oid by (try assumption; lia).
    destruct (open_tag_enc 1 (b ++ spec_ctx_oid 0 o) ltac:(lia)) as [E _]. rewrite E.
    rewrite enc_write_props by assumption. cbn [rbind].
    match goal with |- context [closingTag 1 (mkEnc ?b None)] => destruct (open_tag_enc 1 b ltac:(lia)) as [_ E2]; rewrite E2 end.
    rewrite IH. unfold lib_write_spec. cbn [fst snd]. rewrite <- !app_assoc. reflexivity. }
  rewrite HO. cbn [rbind eerr]. rewrite <- app_assoc. reflexivity.
Qed.
Lemma plain_same : forall x, Forall writing_ok (snd x) -> Forall (plain_writing (fst x)) (snd x) -> lib_write_spec x = spec_write_spec x.
Proof.
  intros [o ws]. cbn [fst snd]. intros H1 H2. unfold lib_write_spec, spec_write_spec. cbn [fst snd]. do 3 f_equal.
  induction ws as [|w ws IH]; [reflexivity|].
  apply Forall_cons_iff in H1. destruct H1 as [(Hp & Hi & Hv & Hpr) H1]. apply Forall_cons_iff in H2. destruct H2 as [(P0 & PS & PB) H2].
  cbn [flat_map]. f_equal; [|apply IH; assumption]. unfold lib_writing, spec_writing. rewrite P0. do 3 f_equal. f_equal.
  assert (A : app_written (wt_value w) = spec_app (wt_value w)).
  { apply written_iff in PS; [|assumption]. unfold writes, newEncoder in PS. rewrite enc_app_written in PS by assumption. cbn [app] in PS. congruence. }
  rewrite A. unfold property_octets. destruct (wt_value w) eqn:EV; try reflexivity.
  destruct (binary_pv o (wt_prop w)) eqn:EB; [|reflexivity]. exfalso. eapply PB; reflexivity.
Qed.
Lemma writemulti_plain : forall inv xs, is_byte inv ->
  Forall (fun x => valid_oid (fst x) /\ Forall writing_ok (snd x) /\ Forall (plain_writing (fst x)) (snd x)) xs ->
  enc_WriteMultiProperty inv (mkMPD (map write_object xs)) newEncoder = ROk (mkEnc (spec_writemulti_request inv xs) None, None).
Proof.
  intros inv xs Hb H. unfold newEncoder. rewrite enc_writemulti; [|assumption|eapply Forall_impl; [|exact H]; cbv beta; tauto].
  cbn [app]. unfold spec_writemulti_request. do 4 f_equal.
  induction H as [|x xs (H1 & H2 & H3) H IH]; [reflexivity|]. cbn [flat_map]. rewrite plain_same by assumption. rewrite IH. reflexivity.
Qed.

(** ** C33 *)
Lemma write_never_fails : forall bs b, write bs (mkEnc b None) = mkEnc (b ++ bs) None. Proof. reflexivity. Qed.
Lemma request_header : forall dest me, exists hdr, enc_NPDU (request_npdu dest me) newEncoder = ROk (mkEnc hdr None).
Proof.
  intros dest me. unfold enc_NPDU. cbn [request_npdu n_version n_dest n_src n_hop n_netmsg n_msgtype].
  assert (HM : forall b, enc_NPDU (request_npdu dest me) b <> RPanic \/ True) by (intros; right; exact I).
  clear HM. unfold newEncoder, write_u8, write_u16, enc_addr.
  set (meta := npdu_meta (request_npdu dest me)).
  assert (Hd : me = None -> checkMask meta maskSrc = false).
  { intros ->. unfold meta, npdu_meta. cbn. destruct (a_net dest =? 0); reflexivity. }
  destruct (checkMask meta maskDest); destruct (checkMask meta maskSrc);
  (destruct me as [m|]; [|try (specialize (Hd eq_refl); discriminate)]); cbn [rbind];
  destruct (checkMask meta maskNetMsg); cbn [rbind]; try (eexists; reflexivity);
  destruct (128 <=? 0); eexists; reflexivity.
Qed.

Lemma udp_setlength : forall a, addr_UDPAddr (addr_SetLength a) = addr_UDPAddr a.
Proof. intros a. unfold addr_SetLength. destruct (0 <? zlen (a_adr a)); reflexivity. Qed.
Lemma exchange_sends : forall e k dest data ip port, addr_UDPAddr dest = Some (ip, port) ->
  fst (exchange e k dest data) = [mkDgram ip port (send_frame dest data None)].
Proof.
  intros e k dest data ip port H. unfold exchange, send_dgram. rewrite H. destruct (at_sent _); reflexivity.
Qed.
Lemma rp_loop_first : forall n k e dest data last ip port, addr_UDPAddr dest = Some (ip, port) ->
  exists rest, fst (rp_loop (S n) k e dest data last) = mkDgram ip port (send_frame dest data None) :: rest
  /\ (n = O -> rest = []).
Proof.
  intros n k e dest data last ip port H. cbn [rp_loop]. pose proof (exchange_sends e k dest data ip port H) as HE.
  destruct (exchange e k dest data) as [tr r]. cbn [fst] in HE. subst tr.
  assert (R : forall err, exists rest, fst (let '(tr', r') := rp_loop n (S k) e dest data err in
     ([mkDgram ip port (send_frame dest data None)] ++ tr', r')) = mkDgram ip port (send_frame dest data None) :: rest /\ (n = O -> rest = [])).
  { intro err. exists (fst (rp_loop n (S k) e dest data err)). destruct (rp_loop n (S k) e dest data err) eqn:E. split; [reflexivity|].
    intros ->. cbn in E. inversion E. reflexivity. }
  destruct r as [err|[b|c x]]; [apply R| |exists []; split; [reflexivity|auto]].
  destruct (check_apdu (newDecoder b)) as [[err|] d]; [apply R|].
  destruct (dec_ReadProperty d) as [[[o|] [err|]] d'| |]; try apply R; exists []; split; reflexivity || auto.
Qed.
Lemma wp_loop_first : forall n k e dest data last ip port, addr_UDPAddr dest = Some (ip, port) ->
  exists rest, fst (wp_loop (S n) k e dest data last) = mkDgram ip port (send_frame dest data None) :: rest.
Proof.
  intros n k e dest data last ip port H. cbn [wp_loop]. pose proof (exchange_sends e k dest data ip port H) as HE.
  destruct (exchange e k dest data) as [tr r]. cbn [fst] in HE. subst tr.
  assert (R : forall err, exists rest, fst (let '(tr', r') := wp_loop n (S k) e dest data err in
     ([mkDgram ip port (send_frame dest data None)] ++ tr', r')) = mkDgram ip port (send_frame dest data None) :: rest).
  { intro err. exists (fst (wp_loop n (S k) e dest data err)). destruct (wp_loop n (S k) e dest data err). reflexivity. }
  destruct r as [err|[b|c x]]; [apply R| |exists []; reflexivity].
  destruct (check_apdu (newDecoder b)) as [[err|] d]; cbn [fst]; [apply R|]. exists []. reflexivity.
Qed.
(** with an invalid reference, the datagram carries the bare service header *)
Lemma invalid_read_sent : forall e me dev ip port id, ev_id e = Some id -> routable dev ip port -> exists hdr,
  enc_NPDU (request_npdu (addr_SetLength (dv_addr dev)) me) newEncoder = ROk (mkEnc hdr None)
  /\ forall o p ps nm ds, 1023 < oid_type o \/ 4194303 < pr_type p ->
  fst (ReadProperty e me dev (mkPD (mkObj nm ds o (p :: ps))))
  = [mkDgram ip port (send_frame (addr_SetLength (dv_addr dev)) (hdr ++ spec_request (u8 id) 12) None)].
Proof.
  intros e me dev ip port id Hid Hr. destruct (request_header (addr_SetLength (dv_addr dev)) me) as [hdr EH]. exists hdr.
  split; [exact EH|]. intros o p ps nm ds Hinv. unfold ReadProperty. rewrite Hid, EH. unfold enc_ReadProperty.
  rewrite enc_request by (unfold is_byte, u8, svcReadProperty; lia).
  destruct (header_invalid 0 o p ps nm ds (mkEnc (hdr ++ spec_request (u8 id) svcReadProperty) None) Hinv) as [x EX].
  rewrite EX. cbn [rbind fst eerr ebuf].
  destruct (rp_loop_first 0 0 e (addr_SetLength (dv_addr dev)) (hdr ++ spec_request (u8 id) svcReadProperty) CNoData ip port) as (rest & E1 & E2).
  { rewrite udp_setlength. exact Hr. }
  rewrite (E2 eq_refl) in E1. exact E1.
Qed.
Lemma invalid_write_sent : forall e me dev ip port id, ev_id e = Some id -> routable dev ip port -> exists hdr,
  enc_NPDU (request_npdu (addr_SetLength (dv_addr dev)) me) newEncoder = ROk (mkEnc hdr None)
  /\ forall o p ps nm ds, 1023 < oid_type o \/ 4194303 < pr_type p -> exists rest,
  fst (WriteProperty e me dev (mkPD (mkObj nm ds o (p :: ps))))
  = mkDgram ip port (send_frame (addr_SetLength (dv_addr dev)) (hdr ++ spec_request (u8 id) 15) None) :: rest.
Proof.
  intros e me dev ip port id Hid Hr. destruct (request_header (addr_SetLength (dv_addr dev)) me) as [hdr EH]. exists hdr.
  split; [exact EH|]. intros o p ps nm ds Hinv. unfold WriteProperty. rewrite Hid, EH. unfold enc_WriteProperty.
  rewrite enc_request by (unfold is_byte, u8, svcWriteProperty; lia).
  destruct (header_invalid 0 o p ps nm ds (mkEnc (hdr ++ spec_request (u8 id) svcWriteProperty) None) Hinv) as [x EX].
  rewrite EX. cbn [rbind fst eerr ebuf].
  apply wp_loop_first. rewrite udp_setlength. exact Hr.
Qed.
Lemma ctx_oid_alias : forall num o e, 0 <= oid_type (o_id o) -> 0 <= oid_inst (o_id o) ->
  contextObjectID num (o_id o) e = contextObjectID num (o_id (alias o)) e.
Proof.
  intros num o e H1 H2. unfold contextObjectID, enc_objectId. cbn [alias o_id oid_type oid_inst].
  rewrite !objectId_u32_gen by (try assumption; apply Z.mod_pos_bound; lia). rewrite !Z.mod_mod by lia. reflexivity.
Qed.
Lemma enc_objects_alias : forall wr os e, Forall (fun o => 0 <= oid_type (o_id o) /\ 0 <= oid_inst (o_id o)) os ->
  enc_objects wr os e = enc_objects wr (map alias os) e.
Proof.
  induction os as [|o os IH]; intros e H; [reflexivity|]. apply Forall_cons_iff in H. destruct H as [[H1 H2] H].
  cbn [enc_objects map]. rewrite ctx_oid_alias by assumption. change (o_props (alias o)) with (o_props o).
  destruct (enc_properties wr (o_props o) _); [|reflexivity]. cbn [rbind]. apply IH. assumption.
Qed.
Lemma multi_alias : forall fuel e me dev os, Forall (fun o => 0 <= oid_type (o_id o) /\ 0 <= oid_inst (o_id o)) os ->
  ReadMultiProperty fuel e me dev (mkMPD os) = ReadMultiProperty fuel e me dev (mkMPD (map alias os))
  /\ WriteMultiProperty e me dev (mkMPD os) = WriteMultiProperty e me dev (mkMPD (map alias os)).
Proof.
  intros fuel e me dev os H. unfold ReadMultiProperty, WriteMultiProperty, enc_ReadMultipleProperty, enc_WriteMultiProperty.
  cbn [md_objects]. split.
  - destruct (ev_id e); [|reflexivity]. destruct (dv_maxapdu dev =? 0); [reflexivity|].
    destruct (enc_NPDU _ _); [|reflexivity]. rewrite <- enc_objects_alias by assumption. reflexivity.
  - destruct (ev_id e); [|reflexivity].
    destruct (enc_NPDU _ _); [|reflexivity]. rewrite <- enc_objects_alias by assumption. reflexivity.
Qed.

Lemma enc_unsupported : forall v b, unsupported_type v -> enc_AppData v false (mkEnc b None) = ROk (mkEnc b (Some EUnknownType)).
Proof. intros v b H. destruct v; simpl in H; try contradiction; reflexivity. Qed.
Lemma write_err : forall bs b x, write bs (mkEnc b (Some x)) = mkEnc b (Some x). Proof. reflexivity. Qed.
Lemma write_u8_err : forall v b x, write_u8 v (mkEnc b (Some x)) = mkEnc b (Some x). Proof. reflexivity. Qed.
Lemma write_u16_err : forall v b x, write_u16 v (mkEnc b (Some x)) = mkEnc b (Some x). Proof. reflexivity. Qed.
Lemma write_u32_err : forall v b x, write_u32 v (mkEnc b (Some x)) = mkEnc b (Some x). Proof. reflexivity. Qed.
Definition failing (e : enc) : Prop := eerr e <> None.
Lemma w_fail : forall bs e, failing e -> write bs e = e.
Proof. intros bs [b [x|]] H; [reflexivity|]. exfalso. apply H. reflexivity. Qed.
Lemma tagnum_fail : forall m n e, failing e -> enc_tagNum m n e = e.
Proof. intros m n e H. unfold enc_tagNum, write_u8. destruct (n <=? 14); rewrite ?(w_fail _ _ H); reflexivity. Qed.
Lemma enc_tag_fail : forall t e, failing e -> enc_tag t e = e.
Proof.
  intros t e H. unfold enc_tag, write_u8, write_u16, write_u32.
  destruct (tg_id t <=? 14); destruct (4 <? tg_value t); destruct (tg_value t <=? 253); destruct (tg_value t <=? 65535);
  cbv zeta; rewrite ?(w_fail _ _ H); reflexivity.
Qed.
Lemma enc_unsigned_fail : forall v e, failing e -> enc_unsigned v e = e.
Proof.
  intros v e H. unfold enc_unsigned, enc_unsigned24, write_u8, write_u16, write_u32.
  destruct (v <? 256); [apply w_fail; assumption|]. destruct (v <? 65536); [apply w_fail; assumption|].
  destruct (v <? 16777216); [|apply w_fail; assumption]. cbv zeta. rewrite ?(w_fail _ _ H). reflexivity.
Qed.
Lemma ctx_unsigned_fail : forall n v e, failing e -> contextUnsigned n v e = e.
Proof. intros. unfold contextUnsigned. rewrite enc_tag_fail by assumption. apply enc_unsigned_fail. assumption. Qed.
Lemma open_fail : forall n e, failing e -> openingTag n e = e /\ closingTag n e = e.
Proof. intros. unfold openingTag, closingTag. rewrite !tagnum_fail by assumption. split; reflexivity. Qed.

Lemma unsupported_refused : forall e me dev id o p idx v prio, ev_id e = Some id -> valid_oid o -> valid_property p -> in_u32 idx ->
  unsupported_type v -> binary_pv o p = false ->
  WriteProperty e me dev (write_of o p idx v prio) = ([], CErr (CEnc EUnknownType)).
Proof.
  intros e me dev id o p idx v prio Hid Ho Hp Hi Hv Hb. unfold WriteProperty. rewrite Hid.
  destruct (request_header (addr_SetLength (dv_addr dev)) me) as [hdr EH]. rewrite EH.
  unfold enc_WriteProperty. rewrite enc_request by (unfold is_byte, u8, svcWriteProperty; lia). rewrite point_binary, Hb. unfold write_of.
  rewrite header_valid by assumption. cbn [rbind pd_object o_props pr_data pr_prio].
  match goal with |- context [openingTag 3 (mkEnc ?b None)] => destruct (open_tag_enc 3 b ltac:(lia)) as [E _]; rewrite E end.
  rewrite enc_unsupported by assumption. cbn [rbind].
  match goal with |- context [closingTag 3 ?e] => assert (HF : failing e) by (intro; discriminate) end.
  rewrite (proj2 (open_fail 3 _ HF)).
  destruct (negb (prio =? 0)); [rewrite ctx_unsigned_fail by assumption|]; reflexivity.
Qed.
Lemma binary_write_crashes : forall e me dev id o p idx v prio, ev_id e = Some id -> valid_oid o -> valid_property p -> in_u32 idx ->
  binary_pv o p = true -> v <> VNull -> (forall n, v <> VUint n) ->
  WriteProperty e me dev (write_of o p idx v prio) = ([], CPanic).
Proof.
  intros e me dev id o p idx v prio Hid Ho Hp Hi Hb Hn Hu. unfold WriteProperty. rewrite Hid.
  destruct (request_header (addr_SetLength (dv_addr dev)) me) as [hdr EH]. rewrite EH.
  unfold enc_WriteProperty. rewrite enc_request by (unfold is_byte, u8, svcWriteProperty; lia). rewrite point_binary, Hb. unfold write_of.
  rewrite header_valid by assumption. cbn [rbind pd_object o_props pr_data pr_prio].
  destruct v; try reflexivity; [congruence|exfalso; eapply Hu; reflexivity].
Qed.
(** WritePropertyMultiple: the encoder's error is sticky and it cannot panic *)
Lemma enc_app_fail : forall v e, exists e', enc_AppData v false e = ROk e' /\ (failing e -> failing e').
Proof.
  intros v e. destruct v; cbn [enc_AppData]; eexists; (split; [reflexivity|]); intro H;
  unfold enc_boolean, enc_enumerated, enc_objectId, enc_string, write_u32, write_u8;
  rewrite ?(enc_tag_fail _ _ H), ?(enc_unsigned_fail _ _ H), ?(w_fail _ _ H), ?(w_fail _ _ H); try exact H; cbn; discriminate.
Qed.
Lemma enc_props_fail : forall ps e, exists e', enc_properties true ps e = ROk e'
  /\ (failing e \/ Exists (fun p => unsupported_type (pr_data p)) ps -> failing e').
Proof.
  induction ps as [|p ps IH]; intro e.
  - exists e. split; [reflexivity|]. intros [H|H]; [exact H|inversion H].
  - cbn [enc_properties]. unfold enc_property.
    set (e1 := if negb (pr_index p =? ArrayAll) then _ else _).
    assert (F1 : failing e -> failing e1).
    { intro H. unfold e1, contextEnumerated. rewrite !(ctx_unsigned_fail _ _ e H). destruct (negb _); assumption. }
    destruct (enc_app_fail (pr_data p) (openingTag 2 e1)) as (e2 & E2 & F2). rewrite E2. cbn [rbind].
    set (e3 := if negb (pr_prio p =? 0) then _ else _).
    assert (F3 : failing e2 -> failing e3).
    { intro H. unfold e3. rewrite (proj2 (open_fail 2 _ H)). destruct (negb (pr_prio p =? 0)); rewrite ?(ctx_unsigned_fail _ _ e2 H); exact H. }
    destruct (IH e3) as (e4 & E4 & F4). exists e4. split; [exact E4|]. intros H. apply F4.
    destruct H as [H|H].
    + left. apply F3, F2. rewrite (proj1 (open_fail 2 _ (F1 H))). apply F1, H.
    + apply Exists_cons in H. destruct H as [H|H]; [|right; exact H]. left. apply F3.
      destruct (pr_data p); simpl in H; try contradiction; cbn [enc_AppData] in E2; intro X;
      apply (f_equal (fun r => match r with ROk e => eerr e | RPanic => None end)) in E2; cbn in E2; congruence.
Qed.
Lemma enc_objects_fail : forall os e, exists e', enc_objects true os e = ROk e'
  /\ (failing e \/ Exists (fun o => Exists (fun p => unsupported_type (pr_data p)) (o_props o)) os -> failing e').
Proof.
  induction os as [|o os IH]; intro e.
  - exists e. split; [reflexivity|]. intros [H|H]; [exact H|inversion H].
  - cbn [enc_objects].
    set (e1 := openingTag 1 _).
    assert (F1 : failing e -> failing e1).
    { intro H. unfold e1, contextObjectID, enc_objectId, write_u32. rewrite enc_tag_fail by assumption. rewrite w_fail by assumption.
      rewrite (proj1 (open_fail 1 _ H)). assumption. }
    destruct (enc_props_fail (o_props o) e1) as (e2 & E2 & F2). rewrite E2. cbn [rbind].
    assert (F3 : failing e2 -> failing (closingTag 1 e2)) by (intro H; rewrite (proj2 (open_fail 1 _ H)); assumption).
    destruct (IH (closingTag 1 e2)) as (e4 & E4 & F4). exists e4. split; [exact E4|]. intros H. apply F4.
    destruct H as [H|H]; [left; auto|]. apply Exists_cons in H. destruct H as [H|H]; [left; auto|right; exact H].
Qed.
Lemma multi_unsupported_refused : forall e me dev id os, ev_id e = Some id ->
  Exists (fun o => Exists (fun p => unsupported_type (pr_data p)) (o_props o)) os ->
  exists x, WriteMultiProperty e me dev (mkMPD os) = ([], CErr (CEnc x)).
Proof.
  intros e me dev id os Hid H. unfold WriteMultiProperty. rewrite Hid.
  destruct (request_header (dv_addr dev) me) as [hdr EH]. rewrite EH. unfold enc_WriteMultiProperty. cbn [md_objects].
  match goal with |- context [enc_objects true os ?e0] => destruct (enc_objects_fail os e0) as (e2 & E2 & F2) end.
  rewrite E2. cbn [rbind]. specialize (F2 (or_intror H)). destruct e2 as [b [x|]]; [|exfalso; apply F2; reflexivity].
  cbn [eerr]. eexists. reflexivity.
Qed.

(** ** determinism of the observations, and the equivalences *)
Lemma rp_accepts_fun : forall bs a b, rp_accepts bs a -> rp_accepts bs b -> a = b.
Proof.
  intros bs a b (d1 & d2 & E1 & E2 & _) (d1' & d2' & E1' & E2' & _).
  rewrite E1 in E1'. assert (d1 = d1') by congruence. subst d1'. rewrite E2 in E2'. congruence.
Qed.
Lemma ack_round_iff : forall inv o p idx v, is_byte inv -> valid_oid o -> valid_property p -> in_u32 idx -> writable v ->
  exists bs, enc_ReadPropertyAck inv (answer o p idx v) newEncoder = ROk (mkEnc bs None, None)
  /\ (rp_accepts bs (answer o p idx (as_read v))
      <-> forall n, v = VInt n -> ~ (128 <= n < 256 \/ 32768 <= n < 65536)).
Proof.
  intros inv o p idx v Hb Ho Hp Hi Hv. exists (lib_ack inv o p idx v). split; [apply enc_ack; assumption|].
  pose proof (lib_ack_read inv o p idx v Hb Ho Hp Hi Hv) as HR. split.
  - intros HA n -> . pose proof (rp_accepts_fun _ _ _ HR HA) as E. unfold answer in E. cbn [reread as_read] in E.
    apply int_reread_iff; [exact Hv|]. congruence.
  - intro H. rewrite <- reread_same by assumption. exact HR.
Qed.
