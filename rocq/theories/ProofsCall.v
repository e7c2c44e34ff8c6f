(** Calls: framing of requests, retries, limits. *)
From Coq Require Import Lia ZifyBool ZifyNat.
From Verif Require Import ModelClient SpecWire SpecCodec SpecLayers SpecServices SpecObs SpecClient
  ProofsWire ProofsTag ProofsApp ProofsBits ProofsTrunc ProofsCodec ProofsLayers ProofsLayerProps ProofsServices ProofsMulti ProofsTerm ProofsServiceProps ProofsRecv.
Ltac Zify.zify_post_hook ::= Z.div_mod_to_equations.

(** ** lengths *)
Lemma zlen_app : forall {A} (a b : list A), zlen (a ++ b) = zlen a + zlen b.
Proof. intros. unfold zlen. rewrite app_length. lia. Qed.
Lemma zlen_nonneg : forall {A} (l : list A), 0 <= zlen l. Proof. intros. unfold zlen. lia. Qed.
Lemma zlen_cons : forall {A} (x : A) l, zlen (x :: l) = 1 + zlen l.
Proof. intros. unfold zlen. cbn [length]. lia. Qed.
Lemma zlen_nil : forall {A}, zlen (@nil A) = 0. Proof. reflexivity. Qed.
Lemma zlen_octets : forall n v, zlen (octets n v) = Z.of_nat n.
Proof. intros. unfold zlen. rewrite octets_length. reflexivity. Qed.
Lemma usize_le4 : forall v, in_u32 v -> 1 <= usize v <= 4.
Proof.
  intros v [H0 H1]. unfold usize. pose proof (Z.log2_nonneg v).
  assert (Z.log2 v < 32). { destruct (Z.eq_dec v 0); [subst; reflexivity|]. apply Z.log2_lt_pow2; lia. }
  lia.
Qed.
Lemma usize_le3 : forall v, 0 <= v < 16777216 -> 1 <= usize v <= 3.
Proof.
  intros v [H0 H1]. unfold usize. pose proof (Z.log2_nonneg v).
  assert (Z.log2 v < 24). { destruct (Z.eq_dec v 0); [subst; reflexivity|]. apply Z.log2_lt_pow2; lia. }
  lia.
Qed.
Lemma ctx_unsigned_len : forall num v, 0 <= num < 15 -> in_u32 v -> zlen (spec_ctx_unsigned num v) = 1 + usize v.
Proof.
  intros num v Hn Hv. unfold spec_ctx_unsigned, spec_tag, spec_unsigned. pose proof (usize_le4 v Hv).
  replace (num <? 15) with true by lia. replace (usize v <? 5) with true by lia.
  rewrite !app_nil_r, zlen_app, zlen_octets. unfold zlen. cbn [length]. lia.
Qed.
Lemma ctx_oid_len : forall num o, 0 <= num < 15 -> zlen (spec_ctx_oid num o) = 5.
Proof.
  intros num o Hn. unfold spec_ctx_oid, spec_tag, spec_oid. replace (num <? 15) with true by lia. reflexivity.
Qed.
Lemma index_len : forall num v, 0 <= num < 15 -> in_u32 v -> 0 <= zlen (spec_index num v) <= 5.
Proof.
  intros. unfold spec_index. destruct (v =? whole); [cbn; lia|]. rewrite ctx_unsigned_len by assumption.
  pose proof (usize_le4 v H0). lia.
Qed.
Lemma reference_len : forall o p idx, in_u32 p -> in_u32 idx -> 7 <= zlen (spec_reference o p idx) <= 15.
Proof.
  intros o p idx Hp Hi. unfold spec_reference. rewrite !zlen_app, ctx_oid_len, ctx_unsigned_len by (assumption || lia).
  pose proof (usize_le4 p Hp). pose proof (index_len 2 idx ltac:(lia) Hi). lia.
Qed.
Lemma npdu_len : forall n, npdu_ok n -> 2 <= zlen (spec_npdu n) <= 530.
Proof.
  intros n (_ & Hd & Hs & _). unfold spec_npdu. rewrite !zlen_app.
  assert (A : forall a, opt_addr_ok a -> 0 <= zlen (spec_opt_addr a) <= 258).
  { intros [a|] H; unfold spec_opt_addr; [|cbn; lia]. destruct (present (Some a)); [|cbn; lia].
    destruct H as (_ & _ & H & _). unfold spec_addr. rewrite zlen_app, zlen_octets, zlen_cons. pose proof (zlen_nonneg (a_adr a)). lia. }
  pose proof (A _ Hd). pose proof (A _ Hs).
  assert (zlen (if present (n_dest n) then [n_hop n] else []) <= 1) by (destruct (present (n_dest n)); unfold zlen; cbn; lia).
  assert (zlen (if n_netmsg n then n_msgtype n :: (if 128 <=? n_msgtype n then octets 2 (n_vendor n) else []) else []) <= 3).
  { destruct (n_netmsg n); [|unfold zlen; cbn; lia]. destruct (128 <=? n_msgtype n); unfold zlen; cbn [length]; rewrite ?octets_length; cbn; lia. }
  pose proof (zlen_nonneg (if present (n_dest n) then [n_hop n] else [])).
  match goal with |- context [zlen (if n_netmsg n then ?a else ?b)] => pose proof (zlen_nonneg (if n_netmsg n then a else b)) end.
  unfold zlen in *. cbn [length] in *. lia.
Qed.

(** ** the network header of requests *)
Definition lib_header (dest : address) : list Z :=
  if a_net dest =? 0 then [1; 4] else [1; 36] ++ octets 2 (a_net dest) ++ [a_len dest] ++ a_adr dest ++ [255].
Lemma header_exact : forall dest me, present me = false -> 0 <= a_net dest < 65536 -> is_byte (a_len dest) ->
  enc_NPDU (request_npdu dest me) newEncoder = ROk (mkEnc (lib_header dest) None).
Proof.
  intros dest me Hm Hn Hl. unfold enc_NPDU, newEncoder, lib_header.
  assert (EM : npdu_meta (request_npdu dest me) = if a_net dest =? 0 then 4 else 36).
  { unfold npdu_meta, request_npdu. cbn [n_netmsg n_reply n_prio n_dest n_src].
    destruct me as [m|]; [unfold present in Hm; replace (a_net m =? 0) with true by (destruct (a_net m =? 0); [reflexivity|discriminate])|];
    destruct (a_net dest =? 0); reflexivity. }
  rewrite EM. cbn [request_npdu n_version n_dest n_src n_hop n_netmsg n_msgtype]. unfold is_byte in Hl.
  destruct (a_net dest =? 0); cbn [Z.land]; unfold checkMask.
  - reflexivity.
  - cbn [Z.land Z.ltb Z.compare maskDest maskSrc maskNetMsg Pos.land Pos.Ndouble Pos.Nsucc_double Z.of_N rbind]. unfold enc_addr.
    rewrite !write_u8_ok by lia. unfold write_u16. rewrite be16_octets, write_ok. rewrite write_u8_ok by lia. rewrite write_never_fails, write_u8_ok by lia.
    cbn [app]. rewrite <- !app_assoc. reflexivity.
Qed.
Lemma header_ok : forall dest me, addr_ok dest -> opt_addr_ok me ->
  enc_NPDU (request_npdu dest me) newEncoder = ROk (mkEnc (spec_npdu (request_npdu dest me)) None) /\ npdu_ok (request_npdu dest me).
Proof.
  intros dest me Hd Hm.
  assert (npdu_ok (request_npdu dest me)).
  { unfold npdu_ok, request_npdu. cbn [n_version n_dest n_src n_vendor n_msgtype n_prio n_hop opt_addr_ok]. unfold is_byte. repeat split; try assumption; try lia; apply Hd. }
  split; [|assumption]. unfold newEncoder. rewrite enc_npdu_spec by assumption. reflexivity.
Qed.

(** ** encoders behind a header *)
Lemma enc_read : forall inv o p idx hdr, is_byte inv -> valid_oid o -> valid_property p -> in_u32 idx ->
  enc_ReadProperty inv (request o p idx) (mkEnc hdr None) = ROk (mkEnc (hdr ++ spec_read_request inv o p idx) None, None).
Proof.
  intros inv o p idx hdr Hv Ho Hp Hi. unfold enc_ReadProperty, request. rewrite enc_request by (try assumption; unfold is_byte, svcReadProperty; lia).
  rewrite header_valid by assumption. cbn [rbind fst eerr pr_type pr_index]. unfold spec_read_request. rewrite <- app_assoc. reflexivity.
Qed.
Lemma enc_readmulti : forall inv xs hdr, is_byte inv ->
  Forall (fun x => valid_oid (fst x) /\ Forall (fun p => in_u32 (fst p) /\ in_u32 (snd p)) (snd x)) xs ->
  enc_ReadMultipleProperty inv (mkMPD (map read_object xs)) (mkEnc hdr None)
  = ROk (mkEnc (hdr ++ spec_readmulti_request inv xs) None, None).
Proof.
  intros inv xs hdr Hb H. unfold enc_ReadMultipleProperty, spec_readmulti_request.
  rewrite enc_request by (try assumption; unfold is_byte, svcReadPropMultiple; lia). cbn [md_objects]. change svcReadPropMultiple with 14.
  assert (HO : forall b, enc_objects false (map read_object xs) (mkEnc b None)
     = ROk (mkEnc (b ++ flat_map (fun x => spec_read_spec (fst x) (snd x)) xs) None)).
  { induction H as [|[o ps] xs [Ho Hp] Hxs IH]; intro b; [cbn; rewrite app_nil_r; reflexivity|].
    cbn [fst snd] in *. cbn [map enc_objects flat_map read_object o_id o_props fst snd].
    rewrite enc_ctx_oid by (try assumption; lia).
    destruct (open_tag_enc 1 (b ++ spec_ctx_oid 0 o) ltac:(lia)) as [E _]. rewrite E.
    rewrite enc_read_props by assumption. cbn [rbind].
    match goal with |- context [closingTag 1 (mkEnc ?b None)] => destruct (open_tag_enc 1 b ltac:(lia)) as [_ E2]; rewrite E2 end.
    rewrite IH. unfold spec_read_spec. rewrite <- !app_assoc. reflexivity. }
  rewrite HO. cbn [rbind eerr]. rewrite <- app_assoc. reflexivity.
Qed.

(** ** C39 *)
Lemma exchange_answered : forall e k dest data ip port p, addr_UDPAddr dest = Some (ip, port) ->
  let g := mkDgram ip port (send_frame dest data None) in
  at_sent (ev_att e k g) = true -> at_reply (ev_att e k g) = Some p -> exchange e k dest data = ([g], inr p).
Proof. intros e k dest data ip port p H g Hs Hr. unfold exchange, send_dgram. rewrite H. fold g. cbv zeta. rewrite Hs, Hr. reflexivity. Qed.
Lemma send_func_none : forall dest, send_func dest None = 10 \/ send_func dest None = 11.
Proof. intro dest. unfold send_func. destruct (0 <? _); [left; reflexivity|]. destruct (_ || _); auto. Qed.
Lemma frame_small : forall dest data, zlen data <= 65531 -> send_frame dest data None = spec_bvlc (send_func dest None) data.
Proof. intros. apply send_frame_spec; [discriminate|assumption]. Qed.

Lemma read_end_to_end : forall e me dev known src f n ip port o p idx vs id,
  ev_id e = Some id -> is_byte id -> routable dev ip port -> addr_ok (addr_SetLength (dv_addr dev)) -> opt_addr_ok me ->
  valid_oid o -> valid_property p -> in_u32 idx -> Forall supported vs ->
  frame_func f -> npdu_ok n -> n_netmsg n = false ->
  let dest := addr_SetLength (dv_addr dev) in
  let g := mkDgram ip port (spec_bvlc (send_func dest None) (spec_npdu (request_npdu dest me) ++ spec_read_request id o p idx)) in
  at_sent (ev_att e 0 g) = true ->
  (exists reply, at_reply (ev_att e 0 g) = Some reply
     /\ In (EDeliver id reply) (fst (handleMsg known src (spec_bvlc f (spec_npdu n ++ spec_read_ack id o p idx vs))))) ->
  ReadProperty e me dev (request o p idx) = ([g], COk (answer o p idx (one_or_list (map shown vs)))).
Proof.
  intros e me dev known src f n ip port o p idx vs id Hid Hb Hr Ha Hm Ho Hp Hi Hv Hf Hn Hnm dest g Hs (reply & Hre & Hdel).
  unfold ReadProperty. rewrite Hid. destruct (header_ok dest me Ha Hm) as [EH HO]. fold dest. rewrite EH.
  replace (u8 id) with id by (unfold u8; unfold is_byte in Hb; lia).
  rewrite enc_read by assumption. cbn [ebuf].
  assert (Hp' : in_u32 p) by (red in Hp; red; lia).
  assert (HL : zlen (spec_npdu (request_npdu dest me) ++ spec_read_request id o p idx) <= 65531).
  { rewrite zlen_app. pose proof (npdu_len _ HO). unfold spec_read_request. rewrite zlen_app. pose proof (reference_len o p idx Hp' Hi).
    change (zlen (spec_request id 12)) with 4. lia. }
  assert (EX : exchange e 0 dest (spec_npdu (request_npdu dest me) ++ spec_read_request id o p idx) = ([g], inr reply)).
  { pose proof (exchange_answered e 0 dest (spec_npdu (request_npdu dest me) ++ spec_read_request id o p idx) ip port reply) as X.
    cbv zeta in X. rewrite frame_small in X by exact HL. apply X; try assumption. unfold dest. rewrite udp_setlength. exact Hr. }
  unfold spec_read_ack, spec_complex_ack in Hdel. cbn [app] in Hdel. rewrite recv_ack in Hdel; try assumption; [|unfold is_byte; lia|right; reflexivity].
  cbn [fst In] in Hdel. destruct Hdel as [Hdel|[]].
  assert (Er : reply = PBytes (spec_read_ack id o p idx vs)) by (unfold spec_read_ack, spec_complex_ack; cbn [app]; congruence).
  unfold retryCount. cbn [rp_loop]. rewrite EX, Er.
  destruct (read_ack id o p idx vs Ho Hp' Hi Hv) as (d1 & d2 & E1 & E2 & E3). rewrite E1, E2, E3. reflexivity.
Qed.

(** ** C40 *)
Lemma exchange_len : forall e k dest data, (length (fst (exchange e k dest data)) <= 1)%nat.
Proof. intros. unfold exchange. destruct (send_dgram dest data None); [destruct (at_sent _)|]; cbn; lia. Qed.
Lemma exchange_unanswered : forall e k dest data, unanswered e -> exists x, snd (exchange e k dest data) = inl x.
Proof.
  intros e k dest data H. unfold exchange. destruct (send_dgram dest data None) as [g|]; [|eexists; reflexivity].
  destruct (at_sent (ev_att e k g)) eqn:E; [|eexists; reflexivity]. destruct (H k g) as [H'|H']; [congruence|]. rewrite H'. eexists; reflexivity.
Qed.
Lemma rp_len : forall n k e dest data last, (length (fst (rp_loop n k e dest data last)) <= n)%nat.
Proof.
  induction n as [|n IH]; intros; [cbn; lia|]. cbn [rp_loop]. pose proof (exchange_len e k dest data). destruct (exchange e k dest data) as [tr r]. cbn [fst] in *.
  assert (R : forall err, (length (fst (let '(tr', r') := rp_loop n (S k) e dest data err in (tr ++ tr', r'))) <= S n)%nat).
  { intro err. specialize (IH (S k) e dest data err). destruct (rp_loop n (S k) e dest data err). cbn [fst] in *. rewrite app_length. lia. }
  destruct r as [err|[b|c x]]; [apply R| |cbn; lia]. destruct (check_apdu _) as [[err|] d]; [apply R|].
  destruct (dec_ReadProperty d) as [[[o|] [err|]] d'| |]; try apply R; cbn; lia.
Qed.
Lemma wp_len : forall n k e dest data last, (length (fst (wp_loop n k e dest data last)) <= n)%nat.
Proof.
  induction n as [|n IH]; intros; [cbn; lia|]. cbn [wp_loop]. pose proof (exchange_len e k dest data). destruct (exchange e k dest data) as [tr r]. cbn [fst] in *.
  assert (R : forall err, (length (fst (let '(tr', r') := wp_loop n (S k) e dest data err in (tr ++ tr', r'))) <= S n)%nat).
  { intro err. specialize (IH (S k) e dest data err). destruct (wp_loop n (S k) e dest data err). cbn [fst] in *. rewrite app_length. lia. }
  destruct r as [err|[b|c x]]; [apply R| |cbn; lia]. destruct (fst (check_apdu _)) as [err|]; [apply R|cbn; lia].
Qed.
Lemma rpm_len : forall fuel n k e dest data last, (length (fst (rpm_loop fuel n k e dest data last)) <= n)%nat.
Proof.
  induction n as [|n IH]; intros; [cbn; lia|]. cbn [rpm_loop]. pose proof (exchange_len e k dest data). destruct (exchange e k dest data) as [tr r]. cbn [fst] in *.
  assert (R : forall err, (length (fst (let '(tr', r') := rpm_loop fuel n (S k) e dest data err in (tr ++ tr', r'))) <= S n)%nat).
  { intro err. specialize (IH (S k) e dest data err). destruct (rpm_loop fuel n (S k) e dest data err). cbn [fst] in *. rewrite app_length. lia. }
  destruct r as [err|[b|c x]]; [apply R| |apply R]. destruct (check_apdu _) as [[err|] d]; [apply R|].
  destruct (dec_ReadMultiplePropertyAck fuel d) as [[o [err|]] d'| |]; try apply R; cbn; lia.
Qed.
Lemma wpm_len : forall n k e dest data last, (length (fst (wpm_loop n k e dest data last)) <= n)%nat.
Proof.
  induction n as [|n IH]; intros; [cbn; lia|]. cbn [wpm_loop]. pose proof (exchange_len e k dest data). destruct (exchange e k dest data) as [tr r]. cbn [fst] in *.
  assert (R : forall err, (length (fst (let '(tr', r') := wpm_loop n (S k) e dest data err in (tr ++ tr', r'))) <= S n)%nat).
  { intro err. specialize (IH (S k) e dest data err). destruct (wpm_loop n (S k) e dest data err). cbn [fst] in *. rewrite app_length. lia. }
  destruct r as [err|[b|c x]]; [apply R| |apply R]. destruct (fst (check_apdu _)) as [err|]; [apply R|cbn; lia].
Qed.
Lemma rp_unanswered : forall n k e dest data last, unanswered e -> exists x, snd (rp_loop n k e dest data last) = CErr x.
Proof.
  induction n as [|n IH]; intros; [eexists; reflexivity|]. cbn [rp_loop]. destruct (exchange_unanswered e k dest data H) as [x E].
  destruct (exchange e k dest data) as [tr r]. cbn [snd] in E. subst r. destruct (IH (S k) e dest data x H) as [y E].
  destruct (rp_loop n (S k) e dest data x). exists y. exact E.
Qed.
Lemma wp_unanswered : forall n k e dest data last, unanswered e -> exists x, snd (wp_loop n k e dest data last) = CErr x.
Proof.
  induction n as [|n IH]; intros; [eexists; reflexivity|]. cbn [wp_loop]. destruct (exchange_unanswered e k dest data H) as [x E].
  destruct (exchange e k dest data) as [tr r]. cbn [snd] in E. subst r. destruct (IH (S k) e dest data x H) as [y E].
  destruct (wp_loop n (S k) e dest data x). exists y. exact E.
Qed.
Lemma rpm_unanswered : forall fuel n k e dest data last, unanswered e -> exists x, snd (rpm_loop fuel n k e dest data last) = CErr x.
Proof.
  induction n as [|n IH]; intros; [eexists; reflexivity|]. cbn [rpm_loop]. destruct (exchange_unanswered e k dest data H) as [x E].
  destruct (exchange e k dest data) as [tr r]. cbn [snd] in E. subst r. destruct (IH (S k) e dest data x H) as [y E].
  destruct (rpm_loop fuel n (S k) e dest data x). exists y. exact E.
Qed.
Lemma wpm_unanswered : forall n k e dest data last, unanswered e -> exists x, snd (wpm_loop n k e dest data last) = CErr x.
Proof.
  induction n as [|n IH]; intros; [eexists; reflexivity|]. cbn [wpm_loop]. destruct (exchange_unanswered e k dest data H) as [x E].
  destruct (exchange e k dest data) as [tr r]. cbn [snd] in E. subst r. destruct (IH (S k) e dest data x H) as [y E].
  destruct (wpm_loop n (S k) e dest data x). exists y. exact E.
Qed.
Ltac stuck := first [left; eexists; reflexivity | right; split; reflexivity].
Lemma retries_read : forall e me dev rp,
  (length (fst (ReadProperty e me dev rp)) <= 1)%nat /\ (unanswered e -> reports (ReadProperty e me dev rp)).
Proof.
  intros. unfold ReadProperty, reports. destruct (ev_id e); [|split; [cbn; lia|intro; stuck]].
  destruct (enc_NPDU _ _) as [en|]; [|split; [cbn; lia|intro; stuck]].
  destruct (enc_ReadProperty _ _ _) as [[en2 [x|]]|]; try (split; [cbn; lia|intro; stuck]).
  split; [apply rp_len|]. intro H. left. apply rp_unanswered. exact H.
Qed.
Lemma retries_write : forall e me dev wp,
  (length (fst (WriteProperty e me dev wp)) <= 2)%nat /\ (unanswered e -> reports (WriteProperty e me dev wp)).
Proof.
  intros. unfold WriteProperty, reports. destruct (ev_id e); [|split; [cbn; lia|intro; stuck]].
  destruct (enc_NPDU _ _) as [en|]; [|split; [cbn; lia|intro; stuck]].
  destruct (enc_WriteProperty _ _ _) as [[en2 y]|]; [|split; [cbn; lia|intro; stuck]]. destruct (eerr en2); [split; [cbn; lia|intro; stuck]|].
  split; [apply wp_len|]. intro H. left. apply wp_unanswered. exact H.
Qed.
Lemma retries_readmulti : forall fuel e me dev rp,
  (length (fst (ReadMultiProperty fuel e me dev rp)) <= 2)%nat /\ (unanswered e -> reports (ReadMultiProperty fuel e me dev rp)).
Proof.
  intros. unfold ReadMultiProperty, reports. destruct (ev_id e); [|split; [cbn; lia|intro; stuck]].
  destruct (dv_maxapdu dev =? 0); [split; [cbn; lia|intro; stuck]|].
  destruct (enc_NPDU _ _) as [en|]; [|split; [cbn; lia|intro; stuck]].
  destruct (enc_ReadMultipleProperty _ _ _) as [[en2 [x|]]|]; try (split; [cbn; lia|intro; stuck]).
  destruct (_ <? _); [split; [cbn; lia|intro; stuck]|].
  split; [apply rpm_len|]. intro H. left. apply rpm_unanswered. exact H.
Qed.
Lemma retries_writemulti : forall e me dev wp,
  (length (fst (WriteMultiProperty e me dev wp)) <= 2)%nat /\ (unanswered e -> reports (WriteMultiProperty e me dev wp)).
Proof.
  intros. unfold WriteMultiProperty, reports. destruct (ev_id e); [|split; [cbn; lia|intro; stuck]].
  destruct (enc_NPDU _ _) as [en|]; [|split; [cbn; lia|intro; stuck]].
  destruct (enc_WriteMultiProperty _ _ _) as [[en2 y]|]; [|split; [cbn; lia|intro; stuck]]. destruct (eerr en2); [split; [cbn; lia|intro; stuck]|].
  destruct (_ <? _); [split; [cbn; lia|intro; stuck]|].
  split; [apply wpm_len|]. intro H. left. apply wpm_unanswered. exact H.
Qed.

(** ** C41 *)
Lemma exchange_reply : forall e k dest data tr p, exchange e k dest data = (tr, inr p) ->
  exists g, tr = [g] /\ at_sent (ev_att e k g) = true /\ at_reply (ev_att e k g) = Some p.
Proof.
  intros e k dest data tr p H. unfold exchange in H. destruct (send_dgram dest data None) as [g|]; [|discriminate].
  destruct (at_sent (ev_att e k g)) eqn:E; [|discriminate]. destruct (at_reply (ev_att e k g)) eqn:F; [|discriminate].
  exists g. inversion H. subst. auto.
Qed.
Lemma wp_success : forall n k e dest data last tr, wp_loop n k e dest data last = (tr, COk tt) ->
  exists k' g x, In g tr /\ at_sent (ev_att e k' g) = true /\ at_reply (ev_att e k' g) = Some (PBytes x) /\ fst (check_apdu (newDecoder x)) = None.
Proof.
  induction n as [|n IH]; intros k e dest data last tr H; [discriminate|]. cbn [wp_loop] in H.
  destruct (exchange e k dest data) as [tr0 r] eqn:E.
  assert (R : forall err, (let '(tr', r') := wp_loop n (S k) e dest data err in (tr0 ++ tr', r')) = (tr, COk tt) ->
    exists k' g x, In g tr /\ at_sent (ev_att e k' g) = true /\ at_reply (ev_att e k' g) = Some (PBytes x) /\ fst (check_apdu (newDecoder x)) = None).
  { intros err H'. destruct (wp_loop n (S k) e dest data err) as [tr' r'] eqn:EL. inversion H'. subst.
    destruct (IH _ _ _ _ _ _ EL) as (k' & g & x & H1 & H2). exists k', g, x. split; [apply in_or_app; right; exact H1|exact H2]. }
  destruct r as [err|[b|c x]]; [exact (R _ H)| |discriminate].
  destruct (exchange_reply _ _ _ _ _ _ E) as (g & -> & Hs & Hr).
  destruct (fst (check_apdu (newDecoder b))) eqn:EC; [exact (R _ H)|]. inversion H. subst. exists k, g, b. repeat split; auto. left. reflexivity.
Qed.
Lemma write_success : forall e me dev wp tr id, ev_id e = Some id -> replies_from_network e id ->
  WriteProperty e me dev wp = (tr, COk tt) ->
  exists b pre x, is_bytes b /\ b = pre ++ x /\ invoke_of x = id
  /\ (pdu_type x = 0 \/ pdu_type x = 2 \/ pdu_type x = 3)
  /\ exists k g, In g tr /\ at_reply (ev_att e k g) = Some (PBytes x).
Proof.
  intros e me dev wp tr id Hid Hnet H. unfold WriteProperty in H. rewrite Hid in H.
  destruct (enc_NPDU _ _) as [en|]; [|discriminate]. destruct (enc_WriteProperty _ _ _) as [[en2 y]|]; [|discriminate].
  destruct (eerr en2); [discriminate|]. destruct (wp_success _ _ _ _ _ _ _ H) as (k & g & x & Hin & Hs & Hr & Hc).
  destruct (Hnet k g _ Hr) as (known & src & b & Hb & Hdel).
  destruct (handleMsg known src b) as [eff pan] eqn:EH. cbn [fst] in Hdel.
  destruct (handle_cases known src b eff pan Hb EH) as (pubs & eff' & EE & HP & HA & _).
  rewrite EE in Hdel. apply in_app_or in Hdel. destruct Hdel as [Hd|Hd].
  { rewrite Forall_forall in HP. specialize (HP _ Hd). contradiction. }
  destruct HA as (pre & n & x' & Eb & HE); [intro C; rewrite C in Hd; contradiction|].
  destruct HE as [->|[(i & -> & Ht & Hi & _)|[(i & c & kk & -> & _)|(i & raw & d & -> & _)]]]; cbn in Hd; try contradiction; destruct Hd as [Hd|[]]; try discriminate.
  inversion Hd. subst. exists (pre ++ x), pre, x. repeat split; auto. exists k, g. split; assumption.
Qed.

Lemma delivered_checks : forall e id k g x, replies_from_network e id -> at_reply (ev_att e k g) = Some (PBytes x) -> fst (check_apdu (newDecoder x)) = None.
Proof.
  intros e id k g x Hnet Hr. destruct (Hnet k g _ Hr) as (known & src & b & Hb & Hdel).
  destruct (handleMsg known src b) as [eff pan] eqn:EH. cbn [fst] in Hdel.
  destruct (handle_cases known src b eff pan Hb EH) as (pubs & eff' & EE & HP & HA & _).
  rewrite EE in Hdel. apply in_app_or in Hdel. destruct Hdel as [Hd|Hd].
  { rewrite Forall_forall in HP. specialize (HP _ Hd). contradiction. }
  destruct HA as (pre & n & x' & Eb & HE); [intro C; rewrite C in Hd; contradiction|].
  destruct HE as [->|[(i & -> & Ht & Hi & _ & Hc)|[(i & c & kk & -> & _)|(i & raw & d & -> & _)]]]; cbn in Hd; try contradiction; destruct Hd as [Hd|[]]; try discriminate.
  inversion Hd. subst. exact Hc.
Qed.
Lemma exchange_heard : forall e k dest data, exchange e k dest data =
  match send_dgram dest data None with
  | None => ([], inl CSend)
  | Some g => ([g], match heard (ev_att e k g) with Some p => inr p | None => inl (unheard (ev_att e k g)) end)
  end.
Proof.
  intros. unfold exchange, heard, unheard. destruct (send_dgram _ _ _) as [g|]; [|reflexivity]. cbv zeta.
  destruct (at_sent _); [destruct (at_reply _); reflexivity|reflexivity].
Qed.
Lemma heard_checks : forall e id k g x, replies_from_network e id -> heard (ev_att e k g) = Some (PBytes x) -> fst (check_apdu (newDecoder x)) = None.
Proof.
  intros e id k g x Hnet H. unfold heard in H. destruct (at_sent _); [|discriminate]. eapply delivered_checks; eauto.
Qed.
Lemma wp_loop_outcome : forall e id dest data last, replies_from_network e id ->
  match send_dgram dest data None with
  | None => wp_loop 2 0 e dest data last = ([], CErr CSend)
  | Some g => wp_loop 2 0 e dest data last = write_outcome g (ev_att e 0 g) (ev_att e 1 g)
  end.
Proof.
  intros e id dest data last Hnet. cbn [wp_loop]. rewrite !exchange_heard. destruct (send_dgram dest data None) as [g|]; [|reflexivity].
  unfold write_outcome. destruct (heard (ev_att e 0 g)) as [[b|c k]|] eqn:H0; [|reflexivity|].
  - rewrite (heard_checks _ _ _ _ _ Hnet H0). reflexivity.
  - destruct (heard (ev_att e 1 g)) as [[b|c k]|] eqn:H1; [|reflexivity|reflexivity]. rewrite (heard_checks _ _ _ _ _ Hnet H1). reflexivity.
Qed.
Lemma wpm_loop_outcome : forall e id dest data last, replies_from_network e id ->
  match send_dgram dest data None with
  | None => wpm_loop 2 0 e dest data last = ([], CErr (CWrap CSend))
  | Some g => wpm_loop 2 0 e dest data last = multi_outcome g (ev_att e 0 g) (ev_att e 1 g)
  end.
Proof.
  intros e id dest data last Hnet. cbn [wpm_loop]. rewrite !exchange_heard. destruct (send_dgram dest data None) as [g|]; [|reflexivity].
  unfold multi_outcome. destruct (heard (ev_att e 0 g)) as [[b|c k]|] eqn:H0.
  - rewrite (heard_checks _ _ _ _ _ Hnet H0). reflexivity.
  - destruct (heard (ev_att e 1 g)) as [[b|c' k']|] eqn:H1; [|reflexivity|reflexivity]. rewrite (heard_checks _ _ _ _ _ Hnet H1). reflexivity.
  - destruct (heard (ev_att e 1 g)) as [[b|c' k']|] eqn:H1; [|reflexivity|reflexivity]. rewrite (heard_checks _ _ _ _ _ Hnet H1). reflexivity.
Qed.
Lemma write_exact : forall e me dev id wp, ev_id e = Some id -> replies_from_network e id ->
  let r := WriteProperty e me dev wp in
  (fst r = [] /\ snd r <> COk tt) \/ exists g, r = write_outcome g (ev_att e 0 g) (ev_att e 1 g).
Proof.
  intros e me dev id wp Hid Hnet. cbv zeta. unfold WriteProperty. rewrite Hid.
  destruct (enc_NPDU _ _) as [en|]; [|left; split; [reflexivity|discriminate]]. destruct (enc_WriteProperty _ _ _) as [[en2 y]|]; [|left; split; [reflexivity|discriminate]].
  destruct (eerr en2); [left; split; [reflexivity|discriminate]|].
  pose proof (wp_loop_outcome e id (addr_SetLength (dv_addr dev)) (ebuf en2) CNoData Hnet) as H. destruct (send_dgram _ _ _) as [g|].
  - right. exists g. exact H.
  - rewrite H. left. split; [reflexivity|discriminate].
Qed.
Lemma writemulti_exact : forall e me dev id wp, ev_id e = Some id -> replies_from_network e id ->
  let r := WriteMultiProperty e me dev wp in
  (fst r = [] /\ snd r <> COk tt) \/ exists g, r = multi_outcome g (ev_att e 0 g) (ev_att e 1 g).
Proof.
  intros e me dev id wp Hid Hnet. cbv zeta. unfold WriteMultiProperty. rewrite Hid.
  destruct (enc_NPDU _ _) as [en|]; [|left; split; [reflexivity|discriminate]]. destruct (enc_WriteMultiProperty _ _ _) as [[en2 y]|]; [|left; split; [reflexivity|discriminate]].
  destruct (eerr en2); [left; split; [reflexivity|discriminate]|].
  destruct (_ <? _); [left; split; [reflexivity|discriminate]|].
  pose proof (wpm_loop_outcome e id (dv_addr dev) (ebuf en2) CNoData Hnet) as H. unfold maxReattempt. destruct (send_dgram _ _ _) as [g|].
  - right. exists g. exact H.
  - rewrite H. left. split; [reflexivity|discriminate].
Qed.

(** ** C42 *)
Lemma exchange_size : forall e k dest data g, In g (fst (exchange e k dest data)) -> zlen (g_bytes g) = 4 + zlen data.
Proof.
  intros e k dest data g H. unfold exchange, send_dgram in H. destruct (addr_UDPAddr dest) as [[ip port]|]; [|contradiction].
  assert (E : g = mkDgram ip port (send_frame dest data None)) by (destruct (at_sent _) in H; destruct H as [H|[]]; congruence).
  subst g. cbn [g_bytes]. unfold send_frame, enc_BVLC, newEncoder, write, write_u16, write_u8.
  cbn [eerr ebuf v_data v_len v_func v_type write]. rewrite !zlen_app. reflexivity.
Qed.
Lemma rpm_size : forall fuel n k e dest data last g, In g (fst (rpm_loop fuel n k e dest data last)) -> zlen (g_bytes g) = 4 + zlen data.
Proof.
  induction n as [|n IH]; intros k e dest data last g H; [contradiction|]. cbn [rpm_loop] in H. pose proof (exchange_size e k dest data g) as HX.
  destruct (exchange e k dest data) as [tr r]. cbn [fst] in HX.
  assert (R : forall err, In g (fst (let '(tr', r') := rpm_loop fuel n (S k) e dest data err in (tr ++ tr', r'))) -> zlen (g_bytes g) = 4 + zlen data).
  { intros err H'. specialize (IH (S k) e dest data err g). destruct (rpm_loop fuel n (S k) e dest data err). cbn [fst] in *. apply in_app_or in H'. tauto. }
  destruct r as [err|[b|c x]]; [exact (R _ H)| |exact (R _ H)]. destruct (check_apdu _) as [[err|] d]; [exact (R _ H)|].
  destruct (dec_ReadMultiplePropertyAck fuel d) as [[o [err|]] d'| |]; try exact (R _ H); exact (HX H).
Qed.
Lemma wpm_size : forall n k e dest data last g, In g (fst (wpm_loop n k e dest data last)) -> zlen (g_bytes g) = 4 + zlen data.
Proof.
  induction n as [|n IH]; intros k e dest data last g H; [contradiction|]. cbn [wpm_loop] in H. pose proof (exchange_size e k dest data g) as HX.
  destruct (exchange e k dest data) as [tr r]. cbn [fst] in HX.
  assert (R : forall err, In g (fst (let '(tr', r') := wpm_loop n (S k) e dest data err in (tr ++ tr', r'))) -> zlen (g_bytes g) = 4 + zlen data).
  { intros err H'. specialize (IH (S k) e dest data err g). destruct (wpm_loop n (S k) e dest data err). cbn [fst] in *. apply in_app_or in H'. tauto. }
  destruct r as [err|[b|c x]]; [exact (R _ H)| |exact (R _ H)]. destruct (fst (check_apdu _)) as [err|]; [exact (R _ H)|exact (HX H)].
Qed.
Lemma limit_readmulti : forall fuel e me dev rp g, In g (fst (ReadMultiProperty fuel e me dev rp)) -> zlen (g_bytes g) < 4294967296 ->
  zlen (g_bytes g) - 4 <= dv_maxapdu dev /\ dv_maxapdu dev <> 0.
Proof.
  intros fuel e me dev rp g H Hl. unfold ReadMultiProperty in H. destruct (ev_id e); [|contradiction].
  destruct (dv_maxapdu dev =? 0) eqn:E0; [contradiction|].
  destruct (enc_NPDU _ _) as [en|]; [|contradiction]. destruct (enc_ReadMultipleProperty _ _ _) as [[en2 [x|]]|]; try contradiction.
  destruct (_ <? _) eqn:E1; [contradiction|]. apply rpm_size in H. unfold u32 in E1. pose proof (zlen_nonneg (ebuf en2)). rewrite Z.mod_small in E1 by lia. lia.
Qed.
Lemma limit_writemulti : forall e me dev wp g, In g (fst (WriteMultiProperty e me dev wp)) -> zlen (g_bytes g) < 4294967296 ->
  zlen (g_bytes g) - 4 <= dv_maxapdu dev.
Proof.
  intros e me dev wp g H Hl. unfold WriteMultiProperty in H. destruct (ev_id e); [|contradiction].
  destruct (enc_NPDU _ _) as [en|]; [|contradiction]. destruct (enc_WriteMultiProperty _ _ _) as [[en2 x]|]; try contradiction.
  destruct (eerr en2); [contradiction|].
  destruct (_ <? _) eqn:E1; [contradiction|]. apply wpm_size in H. unfold u32 in E1. pose proof (zlen_nonneg (ebuf en2)). rewrite Z.mod_small in E1 by lia. lia.
Qed.
