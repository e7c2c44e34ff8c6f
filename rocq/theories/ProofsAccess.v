(** ReadPropertyMultiple answers that report an error for a property. *)
From Coq Require Import Lia ZifyBool ZifyNat.
From Verif Require Import ModelClient SpecWire SpecCodec SpecLayers SpecServices SpecObs
  ProofsWire ProofsTag ProofsApp ProofsBits ProofsTrunc ProofsCodec ProofsLayers ProofsServices ProofsMulti ProofsTerm ProofsServiceProps.
Ltac Zify.zify_post_hook ::= Z.div_mod_to_equations.


Lemma result_step : forall r f obj objs tl p, result_ok r -> (length (rs_values r) < f)%nat -> exists p',
  (let '((tag, meta, len), d) := tagNumberAndValue (mkDec (spec_result r ++ tl) p None) in prop_loop (S f) obj tag meta len objs d)
  = (let '((tag, meta, len), d) := tagNumberAndValue (mkDec tl p' None) in prop_loop f (add_prop obj (shown_result r)) tag meta len objs d).
Proof.
  intros r f obj objs tl p Hr Hf. destruct Hr as (Hp & Hi & Hv).
  unfold spec_result, spec_ctx_unsigned at 1. rewrite <- !app_assoc.
  pose proof (usize_bound _ Hp) as Hup. rewrite tag_round by lia. cbn [prop_loop].
  replace (0 <? dlen _) with true.
  2:{ symmetry. unfold dlen, zlen. cbn [dbuf]. rewrite app_length. unfold spec_unsigned. rewrite octets_length. lia. }
  destruct (tag_meta_notclosing 1 2 (usize (rs_prop r)) ltac:(lia) ltac:(lia) ltac:(lia)) as [Hnc _]. rewrite Hnc.
  rewrite tag_meta_ctx by lia. cbn [Z.eqb Pos.eqb negb andb].
  unfold dec_enumerated. rewrite dec_unsigned_spec by assumption.
  destruct (open_meta_facts 4 ltac:(lia)) as (_ & _ & Ho & _ & Hx & _).
  assert (FIN : forall q, exists p',
    (let '((tag, meta), d) := tagNumber (mkDec (flat_map spec_sent (rs_values r) ++ spec_close 4 ++ tl) q None) in
     match derr d with
     | Some err => Val (obj, objs, Some err) d
     | None =>
       obind (val_loop f obj (rs_prop r) tag meta objs [] d) (fun r0 d =>
       match r0 with
       | (objs, _, Some err) => Val (obj, objs, Some err) d
       | (objs, array, None) =>
          let obj := add_prop obj (mkProp (rs_prop r) (rs_index r) (collapse array) 0) in
          let '((tag, meta, length), d) := tagNumberAndValue d in
          prop_loop f obj tag meta length objs d
       end)
     end) = (let '((tag, meta, len), d) := tagNumberAndValue (mkDec tl p' None) in prop_loop f (add_prop obj (shown_result r)) tag meta len objs d)).
  { intro q. destruct (vals_first (rs_values r) f obj (rs_prop r) objs tl q Hv Hf) as (tm & d1 & p1 & ET & Ed & EV).
    rewrite ET. destruct tm as [tag meta]. rewrite Ed. cbn [fst snd] in EV. rewrite EV. cbn [obind]. exists p1. reflexivity. }
  unfold spec_index, whole. destruct (rs_index r =? 4294967295) eqn:EI.
  - cbn [app]. rewrite tagNumber_open by lia. cbn [Z.eqb Pos.eqb andb]. rewrite Ho.
    apply Z.eqb_eq in EI. rewrite EI in FIN. apply FIN.
  - unfold spec_ctx_unsigned. rewrite <- !app_assoc. pose proof (usize_bound _ Hi) as Hui.
    rewrite tagNumber_short by lia. cbn [Z.eqb Pos.eqb]. rewrite tag_meta_ctx by lia. cbn [Z.eqb Pos.eqb negb andb].
    rewrite dec_value_short by lia. rewrite dec_unsigned_spec by assumption.
    rewrite tagNumber_open by lia. cbn [Z.eqb Pos.eqb andb]. rewrite Ho. apply FIN.
Qed.
Lemma bac_error_spec : forall c k rest p, in_u32 c -> in_u32 k -> exists p',
  dec_bacError (mkDec (spec_app (VEnum c) ++ spec_app (VEnum k) ++ rest) p None) = Val (c, k, None) (mkDec rest p' None).
Proof.
  intros c k rest p Hc Hk. unfold dec_bacError.
  rewrite (dec_sent (SVal (VEnum c))) by exact Hc. cbn [obind shown as_read].
  rewrite (dec_sent (SVal (VEnum k))) by exact Hk. cbn [obind shown as_read]. eexists. reflexivity.
Qed.
Lemma results_fail : forall rs x f obj objs rest p, Forall result_ok rs -> failure_ok x -> (length (flat_map spec_result rs) < f)%nat ->
  exists obj' d,
  (let '((tag, meta, len), d) := tagNumberAndValue (mkDec (flat_map spec_result rs ++ spec_failure x ++ rest) p None) in
   prop_loop f obj tag meta len objs d)
  = Val (obj', objs, Some (EBacnet (fl_class x) (fl_code x))) d.
Proof.
  induction rs as [|r rs IH]; intros x f obj objs rest p Hr Hx Hf; (destruct f as [|f]; [simpl in Hf; lia|]).
  - cbn [flat_map app]. destruct Hx as (Hp & Hi & Hc & Hk). unfold spec_failure, spec_ctx_unsigned at 1. rewrite <- !app_assoc.
    pose proof (usize_bound _ Hp) as Hup. rewrite tag_round by lia. cbn [prop_loop].
    replace (0 <? dlen _) with true.
    2:{ symmetry. unfold dlen, zlen. cbn [dbuf]. rewrite app_length. unfold spec_unsigned. rewrite octets_length. lia. }
    destruct (tag_meta_notclosing 1 2 (usize (fl_prop x)) ltac:(lia) ltac:(lia) ltac:(lia)) as [Hnc _]. rewrite Hnc.
    rewrite tag_meta_ctx by lia. cbn [Z.eqb Pos.eqb negb andb].
    unfold dec_enumerated. rewrite dec_unsigned_spec by assumption.
    destruct (open_meta_facts 5 ltac:(lia)) as (_ & _ & Ho & _).
    assert (FIN : forall q, exists d, obind (dec_bacError (mkDec (spec_app (VEnum (fl_class x)) ++ spec_app (VEnum (fl_code x)) ++ spec_close 5 ++ rest) q None))
      (fun r d => match r with
        | (_, _, Some err) => Val (obj, objs, Some err) d
        | (class, code, None) => let '(_, d) := tagNumber d in Val (obj, objs, Some (EBacnet class code)) d
        end) = Val (obj, objs, Some (EBacnet (fl_class x) (fl_code x))) d).
    { intro q. destruct (bac_error_spec (fl_class x) (fl_code x) (spec_close 5 ++ rest) q Hc Hk) as [p' E]. rewrite E. cbn [obind].
      destruct (tagNumber _) as [tm d]. eexists. reflexivity. }
    exists obj. unfold spec_index, whole. destruct (fl_index x =? 4294967295) eqn:EI.
    + cbn [app]. rewrite tagNumber_open by lia. cbn [Z.eqb Pos.eqb andb]. rewrite Ho. apply FIN.
    + unfold spec_ctx_unsigned. rewrite <- !app_assoc. pose proof (usize_bound _ Hi) as Hui.
      rewrite tagNumber_short by lia. cbn [Z.eqb Pos.eqb]. rewrite tag_meta_ctx by lia. cbn [Z.eqb Pos.eqb negb andb].
      rewrite dec_value_short by lia. rewrite dec_unsigned_spec by assumption.
      rewrite tagNumber_open by lia. cbn [Z.eqb Pos.eqb andb]. rewrite Ho. apply FIN.
  - apply Forall_cons_iff in Hr. destruct Hr as [Hr Hrs]. pose proof (result_len r Hr) as HL.
    cbn [flat_map] in Hf |- *. rewrite app_length in Hf. rewrite <- app_assoc.
    destruct (result_step r f obj objs (flat_map spec_result rs ++ spec_failure x ++ rest) p Hr ltac:(lia)) as [p' E]. rewrite E.
    apply IH; try assumption. lia.
Qed.
Lemma objects_fail : forall xs f oid objs o rs x rest p, Forall access_ok xs -> valid_oid o -> Forall result_ok rs -> failure_ok x ->
  (length (flat_map spec_access xs) + length (flat_map spec_result rs) + 2 < f)%nat -> exists objs' d,
  obj_loop f oid objs (mkDec (flat_map spec_access xs ++ spec_ctx_oid 0 o ++ spec_open 1 ++ flat_map spec_result rs ++ spec_failure x ++ rest) p None)
  = Val (objs', Some (EBacnet (fl_class x) (fl_code x))) d.
Proof.
  induction xs as [|[o1 rs1] xs IH]; intros f oid objs o rs x rest p Hx Ho Hr Hfl Hf; (destruct f as [|f]; [lia|]).
  - cbn [flat_map app]. cbn [obj_loop derr]. unfold spec_ctx_oid. rewrite <- !app_assoc.
    replace (0 <? dlen _) with true.
    2:{ symmetry. unfold dlen, zlen. cbn [dbuf]. rewrite app_length. pose proof (spec_tag_len 1 0 4). unfold zlen in *. lia. }
    rewrite tag_round by lia. cbn [Z.eqb negb]. rewrite tag_meta_ctx by lia. cbn [Z.eqb Pos.eqb negb].
    rewrite dec_objectId_spec by assumption. rewrite tagNumber_open by lia. cbn [Z.eqb Pos.eqb negb].
    destruct (open_meta_facts 1 ltac:(lia)) as (_ & _ & Hop & _). rewrite Hop. cbn [negb].
    destruct (results_fail rs x f (mkObj [] [] o []) objs rest (Some (last (spec_open 1) 0)) Hr Hfl) as (obj' & d' & E); [cbn [flat_map length] in Hf; lia|].
    assert (T2 : fst (fst (fst (tagNumberAndValue (mkDec (flat_map spec_result rs ++ spec_failure x ++ rest) (Some (last (spec_open 1) 0)) None)))) = 2).
    { destruct rs as [|r rs]; cbn [flat_map app].
      - unfold spec_failure, spec_ctx_unsigned at 1. rewrite <- !app_assoc. destruct Hfl as (Hp & _). pose proof (usize_bound _ Hp). rewrite tag_round by lia. reflexivity.
      - unfold spec_result, spec_ctx_unsigned at 1. rewrite <- !app_assoc.
        apply Forall_inv in Hr. destruct Hr as (Hp & _). pose proof (usize_bound _ Hp). rewrite tag_round by lia. reflexivity. }
    destruct (tagNumberAndValue _) as [[[tag meta] len] d]. cbn [fst] in T2. subst tag. cbn [Z.eqb Pos.eqb negb].
    rewrite E. cbn [obind]. do 2 eexists. reflexivity.
  - apply Forall_cons_iff in Hx. destruct Hx as [(Ho1 & Hne & Hr1) Hxs]. cbn [fst snd] in *.
    pose proof (access_len (o1, rs1)) as HL. cbn [snd] in HL.
    cbn [flat_map] in Hf |- *. rewrite app_length in Hf. cbn [obj_loop derr]. rewrite <- app_assoc.
    replace (0 <? dlen _) with true.
    2:{ symmetry. unfold dlen, zlen. cbn [dbuf]. rewrite app_length. lia. }
    set (tl := flat_map spec_access xs ++ spec_ctx_oid 0 o ++ spec_open 1 ++ flat_map spec_result rs ++ spec_failure x ++ rest).
    unfold spec_access, spec_ctx_oid at 1. cbn [fst snd]. rewrite <- !app_assoc.
    rewrite tag_round by lia. cbn [Z.eqb negb]. rewrite tag_meta_ctx by lia. cbn [Z.eqb Pos.eqb negb].
    rewrite dec_objectId_spec by assumption. rewrite tagNumber_open by lia. cbn [Z.eqb Pos.eqb negb].
    destruct (open_meta_facts 1 ltac:(lia)) as (_ & _ & Hop & _). rewrite Hop. cbn [negb].
    destruct (results_next rs1 f (mkObj [] [] o1 []) objs tl (Some (last (spec_open 1) 0)) Hr1 ltac:(lia)) as [p1 E].
    destruct rs1 as [|r rs1]; [congruence|].
    assert (T2 : fst (fst (fst (tagNumberAndValue (mkDec (flat_map spec_result (r :: rs1) ++ spec_close 1 ++ tl) (Some (last (spec_open 1) 0)) None)))) = 2).
    { cbn [flat_map]. unfold spec_result, spec_ctx_unsigned at 1. rewrite <- !app_assoc.
      apply Forall_inv in Hr1. destruct Hr1 as (Hp & _). pose proof (usize_bound _ Hp). rewrite tag_round by lia. reflexivity. }
    destruct (tagNumberAndValue _) as [[[tag meta] len] d]. cbn [fst] in T2. subst tag. cbn [Z.eqb Pos.eqb negb].
    rewrite E. cbn [obind]. apply IH; try assumption. lia.
Qed.
(** the decoder reports the first failure and nothing else *)
Lemma failing_ack : forall inv xs o rs x rest, Forall access_ok xs -> valid_oid o -> Forall result_ok rs -> failure_ok x ->
  let b := spec_failing_ack inv xs o rs x rest in
  exists d1, check_apdu (newDecoder b) = (None, d1)
  /\ forall fuel, (length b <= fuel)%nat -> exists objs d2,
     dec_ReadMultiplePropertyAck fuel d1 = Val (objs, Some (EBacnet (fl_class x) (fl_code x))) d2.
Proof.
  intros inv xs o rs x rest Hx Ho Hr Hf b. unfold b, spec_failing_ack. eexists. rewrite check_ack. split; [reflexivity|].
  intros fuel Hl. unfold dec_ReadMultiplePropertyAck.
  destruct (objects_fail xs fuel (mkOid 0 0) [] o rs x rest (Some 14) Hx Ho Hr Hf) as (objs' & d & E).
  { unfold spec_complex_ack, spec_ctx_oid in Hl. rewrite !app_length in Hl. cbn [length] in Hl. change (length (spec_open 1)) with 1%nat in Hl. lia. }
  rewrite E. cbn [obind]. do 2 eexists. reflexivity.
Qed.
