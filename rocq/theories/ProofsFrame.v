(** Proofs about datagrams that are not frames for this client: C151. *)
From Coq Require Import Lia ZifyBool ZifyNat.
From Verif Require Import ModelClient SpecWire SpecCodec SpecLayers SpecServices SpecObs SpecClient SpecFrame
  ProofsWire ProofsTag ProofsApp ProofsBits ProofsTrunc ProofsCodec ProofsLayers ProofsLayerProps ProofsServices ProofsMulti ProofsTerm ProofsServiceProps ProofsRecv ProofsCall.
Ltac Zify.zify_post_hook ::= Z.div_mod_to_equations.

Lemma apdu_before : forall known src n n' w p q, n_src n = n_src n' -> handle_apdu known src n (mkDec w p None) = handle_apdu known src n' (mkDec w q None).
Proof.
  intros known src n n' w p q S. unfold handle_apdu. cbn [dbuf]. rewrite S. destruct w as [|t r].
  - assert (E : dec_APDU (mkDec [] p None) = dec_APDU (mkDec [] q None)) by (unfold dec_APDU; rewrite !decode_u_short by (cbn; lia); reflexivity). rewrite E. reflexivity.
  - rewrite (dec_apdu_fresh t r p), (dec_apdu_fresh t r q). reflexivity.
Qed.
Lemma npdu_version : forall v v' r p p',
  let '((n, nets, err), d) := dec_NPDU (mkDec (v :: r) p None) in let '((n', nets', err'), d') := dec_NPDU (mkDec (v' :: r) p' None) in
  nets = nets' /\ err = err' /\ d = d' /\ n_src n = n_src n' /\ n_netmsg n = n_netmsg n' /\ n_msgtype n = n_msgtype n' /\ n_vendor n = n_vendor n'.
Proof.
  intros v v' r p p'. unfold dec_NPDU. rewrite !decode_u1_ok. assert (E : decode_u 1 0 (mkDec r (Some v) None) = decode_u 1 0 (mkDec r (Some v') None)).
  { destruct r as [|m r]; [rewrite !decode_u_short by (cbn; lia); reflexivity|rewrite !decode_u1_ok; reflexivity]. }
  rewrite <- E. destruct (decode_u 1 0 (mkDec r (Some v) None)) as [meta d1].
  destruct (if checkMask meta maskDest then let '(a, d) := dec_Address d1 in (Some a, d) else (None, d1)) as [dest d2].
  destruct (if checkMask meta maskSrc then let '(a, d) := dec_Address d2 in (Some a, d) else (None, d2)) as [sr d3].
  destruct (if checkMask meta maskDest then decode_u 1 0 d3 else (0, d3)) as [hop d4].
  destruct (checkMask meta maskNetMsg); [|repeat split].
  destruct (decode_u 1 0 d4) as [mt d5]. destruct (if 128 <? mt then decode_u 2 0 d5 else (0, d5)) as [vendor d6].
  destruct (if mt =? ndpuNetworkIs then let '(n, d) := decode_u 2 0 d6 in (Some (netAddr n), d) else (sr, d6)) as [s2 d7].
  destruct (mt =? ndpuIamRouterToNetwork); [|repeat split].
  destruct (decode_u 2 0 d7) as [n1 d8]. destruct (decode_u 2 n1 d8) as [n2 d9]. repeat split.
Qed.
Lemma bvlc_raw : forall t f a b r, exists l q, dec_BVLC (newDecoder (t :: f :: a :: b :: r)) = (mkBvlc t f l [], mkDec r q None).
Proof. intros. unfold dec_BVLC, newDecoder. rewrite !decode_u1_ok. unfold decode_u, decode_n. cbn. do 2 eexists. reflexivity. Qed.
Lemma fields_ignored : forall known src t f a b v r t' a' b' v',
  does known src (t :: f :: a :: b :: v :: r) = does known src (t' :: f :: a' :: b' :: v' :: r).
Proof.
  intros known src t f a b v r t' a' b' v'. unfold does, handleMsg.
  destruct (bvlc_raw t f a b (v :: r)) as (l & q & ->). destruct (bvlc_raw t' f a' b' (v' :: r)) as (l' & q' & ->). cbn [derr v_func skipn].
  destruct ((f =? bfBroadcast) || (f =? bfUnicast) || (f =? bfForwarded)); [|reflexivity].
  pose proof (npdu_version v v' r q q') as V. destruct (dec_NPDU (mkDec (v :: r) q None)) as [[[n nets] err] d]. destruct (dec_NPDU (mkDec (v' :: r) q' None)) as [[[n' nets'] err'] d'].
  destruct V as (<- & <- & <- & VS & VN & VM & VV). destruct err as [x|]; [reflexivity|]. rewrite <- VN, <- VM.
  assert (HA : handle_apdu known src n d = handle_apdu known src n' d).
  { unfold handle_apdu. destruct (dec_APDU d) as [[ap e] dd]. rewrite VS. reflexivity. }
  rewrite <- HA. destruct (handle_apdu known src n d) as [[eff pan] early].
  assert (PE : forall x : list effect, map seen ((if n_netmsg n then (if n_msgtype n =? ndpuNetworkIs then [EPubNpdu (net_of (n_src n)) n] else []) ++ (if n_msgtype n =? ndpuIamRouterToNetwork then [EPubNets (net_of (n_src n)) nets] else []) else []) ++ x)
    = map seen ((if n_netmsg n then (if n_msgtype n =? ndpuNetworkIs then [EPubNpdu (net_of (n_src n')) n'] else []) ++ (if n_msgtype n =? ndpuIamRouterToNetwork then [EPubNets (net_of (n_src n')) nets] else []) else []) ++ x)).
  { intros x. rewrite VS. destruct (n_netmsg n) eqn:NM; [|reflexivity]. rewrite !map_app. f_equal. f_equal. destruct (n_msgtype n =? ndpuNetworkIs); [|reflexivity]. cbn [map seen]. rewrite VS, VV, VM, <- VN, NM. reflexivity. }
  destruct (pan || early); cbn [fst snd]; rewrite PE; reflexivity.
Qed.
Lemma destination_ignored : forall known src f n n' w, frame_func f -> npdu_ok n -> npdu_ok n' -> n_netmsg n = false -> n_netmsg n' = false -> n_src n = n_src n' ->
  handleMsg known src (spec_bvlc f (spec_npdu n ++ w)) = handleMsg known src (spec_bvlc f (spec_npdu n' ++ w)).
Proof.
  intros known src f n n' w F N N' M M' S. destruct (recv_frame known src f n w F N M) as [p ->]. destruct (recv_frame known src f n' w F N' M') as [q ->].
  rewrite (apdu_before known src (npdu_seen n) (npdu_seen n') w p q); [reflexivity|]. cbn [npdu_seen n_src]. rewrite S. reflexivity.
Qed.
Lemma other_functions : forall known src b, ~ In (nth 1 b 0) [4; 10; 11] -> handleMsg known src b = ([], false).
Proof.
  intros known src b H. unfold handleMsg. destruct (dec_BVLC (newDecoder b)) as [h d] eqn:E. destruct (derr d) eqn:D; [reflexivity|].
  destruct b as [|t [|f [|a [|c r]]]]; try (unfold dec_BVLC, newDecoder, decode_u, decode_n in E; cbn in E; injection E as <- <-; discriminate D).
  destruct (bvlc_raw t f a c r) as (l & q & E'). rewrite E' in E. injection E as <- <-. cbn [v_func nth] in *.
  replace ((f =? bfBroadcast) || (f =? bfUnicast) || (f =? bfForwarded)) with false; [reflexivity|]. unfold bfBroadcast, bfUnicast, bfForwarded. cbn [In] in H. lia.
Qed.
(** an ack cut one octet after some of its values *)
Lemma cut : forall inv o p idx vs v vs', valid_oid o -> in_u32 p -> in_u32 idx -> Forall supported vs -> supported v ->
  exists x rest, spec_read_ack inv o p idx (vs ++ v :: vs') = x ++ rest /\ (0 < length rest)%nat /\ rp_accepts x (answer o p idx (one_or_list (map shown vs))).
Proof.
  intros inv o p idx vs v vs' Ho Hp Hi Hv Sv. pose proof (sent_len v Sv) as L. destruct (spec_sent v) as [|c r] eqn:E; [unfold zlen in L; cbn in L; lia|].
  exists (spec_complex_ack inv 12 ++ spec_reference o p idx ++ spec_open 3 ++ flat_map spec_sent vs ++ [c]), (r ++ flat_map spec_sent vs' ++ spec_close 3).
  split; [|split].
  - unfold spec_read_ack. rewrite flat_map_app. cbn [flat_map]. rewrite E. rewrite <- !app_assoc. reflexivity.
  - rewrite !app_length. change (length (spec_close 3)) with 1%nat. lia.
  - unfold rp_accepts. destruct (read_ack_body o p idx vs c (Some 12) Ho Hp Hi Hv) as (d & E1 & E2). eexists. exists d. split; [apply check_ack|]. split; [exact E1|exact E2].
Qed.
