(** Conforming ReadPropertyMultiple acks are read faithfully. *)
From Coq Require Import Lia ZifyBool ZifyNat.
From Verif Require Import ModelClient SpecWire SpecLayers SpecServices
  ProofsWire ProofsTag ProofsApp ProofsBits ProofsTrunc ProofsCodec ProofsLayers ProofsServices.
Ltac Zify.zify_post_hook ::= Z.div_mod_to_equations.

Lemma sent_split : forall s rest p, supported s -> exists num meta d1,
  tagNumber (mkDec (spec_sent s ++ rest) p None) = ((num, meta), d1)
  /\ meta_isContextSpecific meta = false /\ meta_isClosing meta = false
  /\ (let '(len, d) := dec_value meta d1 in AppDataOfTag num len d)
     = Val (shown s, None) (mkDec rest (Some (last (spec_sent s) 0)) None).
Proof.
  intros s rest p Hs. destruct (sent_tag s Hs) as (num & len & w & E & Hn & Hl).
  pose proof (dec_sent s rest p Hs) as HD. unfold dec_AppData, tagNumberAndValue in HD.
  destruct (tagNumber_spec 0 num len (w ++ rest) p ltac:(lia) ltac:(lia) ltac:(lia)) as (p' & E2 & _).
  assert (ET : tagNumber (mkDec (spec_sent s ++ rest) p None) = ((num, tag_meta 0 num len),
     mkDec ((if len <? 5 then [] else if len <? 254 then [len]
             else if len <? 65536 then 254 :: octets 2 len else 255 :: octets 4 len) ++ w ++ rest) p' None)).
  { rewrite E, <- app_assoc. exact E2. }
  do 3 eexists. split; [exact ET|]. rewrite ET in HD.
  split; [rewrite tag_meta_ctx by lia; reflexivity|].
  split; [apply tag_meta_notclosing; lia|]. revert HD. destruct (dec_value _ _). exact (fun x => x).
Qed.

(** the values of one property, from the reading of the next tag on *)
Lemma vals_next : forall vs f obj ptype objs arr rest p, Forall supported vs -> (length vs <= f)%nat -> exists p',
  (let '((tag, meta), d) := tagNumber (mkDec (flat_map spec_sent vs ++ spec_close 4 ++ rest) p None) in
   if meta_isClosing meta && (tag =? 4) then Val (objs, arr, None) d
   else val_loop f obj ptype tag meta objs arr d)
  = Val (objs, arr ++ map shown vs, None) (mkDec rest p' None).
Proof.
  induction vs as [|v vs IH]; intros f obj ptype objs arr rest p Hs Hf.
  - cbn [flat_map app]. rewrite tagNumber_close by lia.
    destruct (open_meta_facts 4 ltac:(lia)) as (_ & _ & _ & _ & _ & _ & Hc & _). rewrite Hc.
    cbn [Z.eqb Pos.eqb andb map]. rewrite app_nil_r. eexists. reflexivity.
  - apply Forall_cons_iff in Hs. destruct Hs as [Hv Hs]. cbn [flat_map]. rewrite <- app_assoc.
    set (tl := flat_map spec_sent vs ++ spec_close 4 ++ rest).
    destruct (sent_split v tl p Hv) as (num & meta & d1 & ET & Hx & Hc & HA). rewrite ET, Hc. cbn [andb].
    destruct f as [|f]; [simpl in Hf; lia|]. cbn [val_loop]. rewrite Hx.
    destruct (dec_value meta d1) as [len d2]. rewrite HA. cbn [obind].
    unfold tl. destruct (IH f obj ptype objs (arr ++ [shown v]) rest (Some (last (spec_sent v) 0)) Hs) as [p' E]; [simpl in Hf; lia|].
    rewrite E. exists p'. cbn [map]. rewrite <- app_assoc. reflexivity.
Qed.
(** and from the first tag, already read, on *)
Lemma vals_first : forall vs f obj ptype objs rest p, Forall supported vs -> (length vs < f)%nat -> exists tm d1 p',
  tagNumber (mkDec (flat_map spec_sent vs ++ spec_close 4 ++ rest) p None) = (tm, d1)
  /\ derr d1 = None
  /\ val_loop f obj ptype (fst tm) (snd tm) objs [] d1 = Val (objs, map shown vs, None) (mkDec rest p' None).
Proof.
  intros vs f obj ptype objs rest p Hs Hf. destruct vs as [|v vs].
  - cbn [flat_map app]. rewrite tagNumber_close by lia. do 2 eexists.
    destruct (open_meta_facts 4 ltac:(lia)) as (_ & _ & _ & _ & _ & _ & Hc & _ & Hx & _).
    destruct f as [|f]; [simpl in Hf; lia|].
    exists (Some (last (spec_close 4) 0)). split; [reflexivity|]. split; [reflexivity|].
    cbn [val_loop fst snd]. rewrite Hx, Hc. cbn [dec_UnreadByte dprev dbuf derr].
    change (last (spec_close 4) 0 :: rest) with (spec_close 4 ++ rest). rewrite tagNumber_close by lia.
    rewrite Hc. reflexivity.
  - destruct (vals_next (v :: vs) f obj ptype objs [] rest p Hs ltac:(lia)) as [p' E].
    apply Forall_cons_iff in Hs. destruct Hs as [Hv Hs].
    set (tl := flat_map spec_sent vs ++ spec_close 4 ++ rest).
    cbn [flat_map] in E |- *. rewrite <- app_assoc in E |- *. fold tl in E |- *.
    destruct (sent_split v tl p Hv) as (num & meta & d1 & ET & Hx & Hc & HA). rewrite ET in E |- *. rewrite Hc in E.
    cbn [andb app] in E. do 2 eexists. exists p'. split; [reflexivity|]. split; [|exact E].
    destruct (sent_tag v Hv) as (num' & len & w & Es & Hn & Hl). rewrite Es, <- app_assoc in ET.
    destruct (tagNumber_spec 0 num' len (w ++ tl) p ltac:(lia) ltac:(lia) ltac:(lia)) as (q & E2 & _).
    rewrite E2 in ET. inversion ET. reflexivity.
Qed.

Definition add_props (o : object) (ps : list property) : object := mkObj (o_name o) (o_desc o) (o_id o) (o_props o ++ ps).

Lemma result_len : forall r, result_ok r -> (length (rs_values r) + 3 <= length (spec_result r))%nat.
Proof.
  intros r (Hp & Hi & Hv). unfold spec_result, spec_ctx_unsigned. rewrite !app_length. cbn [length].
  pose proof (values_len _ Hv). pose proof (spec_tag_len 1 2 (usize (rs_prop r))).
  change (length (spec_open 4)) with 1%nat. change (length (spec_close 4)) with 1%nat. unfold zlen in *. lia.
Qed.

Lemma results_next : forall rs f obj objs rest p, Forall result_ok rs -> (length (flat_map spec_result rs) < f)%nat -> exists p',
  (let '((tag, meta, len), d) := tagNumberAndValue (mkDec (flat_map spec_result rs ++ spec_close 1 ++ rest) p None) in
   prop_loop f obj tag meta len objs d)
  = Val (add_props obj (map shown_result rs), objs, None) (mkDec rest p' None).
Proof.
  induction rs as [|r rs IH]; intros f obj objs rest p Hr Hf.
  - cbn [flat_map app]. unfold tagNumberAndValue. rewrite tagNumber_close by lia. rewrite dec_value_close by lia.
    destruct f as [|f]; [simpl in Hf; lia|]. cbn [prop_loop].
    cbn [Z.eqb Pos.eqb]. rewrite andb_false_r. cbn [andb map]. unfold add_props. rewrite app_nil_r. destruct obj. eexists. reflexivity.
  - apply Forall_cons_iff in Hr. destruct Hr as [Hr Hrs]. pose proof (result_len r Hr) as HL.
    destruct Hr as (Hp & Hi & Hv).
    cbn [flat_map] in Hf |- *. rewrite app_length in Hf. rewrite <- app_assoc.
    set (tl := flat_map spec_result rs ++ spec_close 1 ++ rest).
    unfold spec_result, spec_ctx_unsigned at 1. rewrite <- !app_assoc.
    pose proof (usize_bound _ Hp) as Hup. rewrite tag_round by lia.
    destruct f as [|f]; [lia|]. cbn [prop_loop].
    replace (0 <? dlen _) with true.
    2:{ symmetry. unfold dlen, zlen. cbn [dbuf]. rewrite app_length. unfold spec_unsigned. rewrite octets_length. lia. }
    destruct (tag_meta_notclosing 1 2 (usize (rs_prop r)) ltac:(lia) ltac:(lia) ltac:(lia)) as [Hnc _]. rewrite Hnc.
    rewrite tag_meta_ctx by lia. cbn [Z.eqb Pos.eqb negb andb].
    unfold dec_enumerated. rewrite dec_unsigned_spec by assumption.
    destruct (open_meta_facts 4 ltac:(lia)) as (_ & _ & Ho & _ & Hx & _).
    assert (FIN : forall f q, (length (rs_values r) < f)%nat -> (length (flat_map spec_result rs) < f)%nat -> exists p',
      (let '((tag, meta), d) := tagNumber (mkDec (flat_map spec_sent (rs_values r) ++ spec_close 4 ++ tl) q None) in
       match derr d with
       | Some err => Val (obj, objs, Some err) d
       | None =>
         obind (val_loop f obj (rs_prop r) tag meta objs [] d) (fun r0 d =>
         match r0 with
         | (objs, _, Some err) => Val (obj, objs, Some err) d
         | (objs, array, None) =>
            let obj := add_prop obj (mkProp (rs_prop r) (rs_index r) (collapse array) 0) in
            let '((tag, meta, length), d) := tagNumberAndValue d in
            prop_loop f obj tag meta length objs d
         end)
       end) = Val (add_props obj (map shown_result (r :: rs)), objs, None) (mkDec rest p' None)).
    { intros f' q Hf1 Hf2.
      destruct (vals_first (rs_values r) f' obj (rs_prop r) objs tl q Hv Hf1) as (tm & d1 & p1 & ET & Ed & EV).
      rewrite ET. destruct tm as [tag meta]. rewrite Ed. cbn [fst snd] in EV. rewrite EV. cbn [obind].
      destruct (IH f' (add_prop obj (mkProp (rs_prop r) (rs_index r) (collapse (map shown (rs_values r))) 0)) objs rest p1 Hrs Hf2)
        as [p' E]. fold tl in E.
      cbv zeta. destruct (tagNumberAndValue _) as [[[? ?] ?] ?]. rewrite E. exists p'.
      unfold add_props, add_prop. cbn [o_name o_desc o_id o_props map]. rewrite <- app_assoc. reflexivity. }
    unfold spec_index, whole. destruct (rs_index r =? 4294967295) eqn:EI.
    + cbn [app]. rewrite tagNumber_open by lia. cbn [Z.eqb Pos.eqb andb]. rewrite Ho.
      apply Z.eqb_eq in EI. rewrite EI in FIN. apply FIN; lia.
    + unfold spec_ctx_unsigned. rewrite <- !app_assoc. pose proof (usize_bound _ Hi) as Hui.
      rewrite tagNumber_short by lia. cbn [Z.eqb Pos.eqb]. rewrite tag_meta_ctx by lia. cbn [Z.eqb Pos.eqb negb andb].
      rewrite dec_value_short by lia. rewrite dec_unsigned_spec by assumption.
      rewrite tagNumber_open by lia. cbn [Z.eqb Pos.eqb andb]. rewrite Ho.
      apply FIN; lia.
Qed.

Lemma access_len : forall x, (length (flat_map spec_result (snd x)) + 3 <= length (spec_access x))%nat.
Proof.
  intros x. unfold spec_access, spec_ctx_oid. rewrite !app_length.
  change (length (spec_open 1)) with 1%nat. change (length (spec_close 1)) with 1%nat.
  pose proof (spec_tag_len 1 0 4). unfold zlen in *. lia.
Qed.

Lemma objects_ok : forall xs f oid objs p, Forall access_ok xs -> (length (flat_map spec_access xs) < f)%nat -> exists p',
  obj_loop f oid objs (mkDec (flat_map spec_access xs) p None) = Val (objs ++ map shown_access xs, None) (mkDec [] p' None).
Proof.
  induction xs as [|[o rs] xs IH]; intros f oid objs p Hx Hf; (destruct f as [|f]; [simpl in Hf; lia|]).
  - cbn. rewrite app_nil_r. eexists. reflexivity.
  - apply Forall_cons_iff in Hx. destruct Hx as [(Ho & Hne & Hr) Hxs]. cbn [fst snd] in *.
    pose proof (access_len (o, rs)) as HL. cbn [snd] in HL.
    cbn [flat_map] in Hf |- *. rewrite app_length in Hf. cbn [obj_loop derr].
    replace (0 <? dlen _) with true.
    2:{ symmetry. unfold dlen, zlen. cbn [dbuf]. rewrite app_length. lia. }
    set (tl := flat_map spec_access xs).
    unfold spec_access, spec_ctx_oid. cbn [fst snd]. rewrite <- !app_assoc.
    rewrite tag_round by lia. cbn [Z.eqb negb]. rewrite tag_meta_ctx by lia. cbn [Z.eqb Pos.eqb negb].
    rewrite dec_objectId_spec by assumption. rewrite tagNumber_open by lia. cbn [Z.eqb Pos.eqb negb].
    destruct (open_meta_facts 1 ltac:(lia)) as (_ & _ & Hop & _). rewrite Hop. cbn [negb].
    destruct (results_next rs f (mkObj [] [] o []) objs tl (Some (last (spec_open 1) 0)) Hr ltac:(lia)) as [p1 E].
    destruct rs as [|r rs]; [congruence|].
    assert (T2 : fst (fst (fst (tagNumberAndValue (mkDec (flat_map spec_result (r :: rs) ++ spec_close 1 ++ tl) (Some (last (spec_open 1) 0)) None)))) = 2).
    { cbn [flat_map]. unfold spec_result, spec_ctx_unsigned at 1. rewrite <- !app_assoc.
      apply Forall_inv in Hr. destruct Hr as (Hp & _). pose proof (usize_bound _ Hp). rewrite tag_round by lia. reflexivity. }
    destruct (tagNumberAndValue _) as [[[tag meta] len] d]. cbn [fst] in T2. subst tag. cbn [Z.eqb Pos.eqb negb].
    rewrite E. cbn [obind].
    destruct (IH f o (objs ++ [add_props (mkObj [] [] o []) (map shown_result (r :: rs))]) p1 Hxs) as [p' E2]; [lia|].
    fold tl in E2. rewrite E2. exists p'. rewrite <- app_assoc. reflexivity.
Qed.
