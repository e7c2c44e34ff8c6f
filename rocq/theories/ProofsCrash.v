(** When reading object lists returns. *)
From Coq Require Import Lia ZifyBool ZifyNat Permutation.
From Verif Require Import ModelClient SpecWire SpecCodec SpecLayers SpecServices SpecObs SpecClient
  ProofsWire ProofsTag ProofsApp ProofsBits ProofsTrunc ProofsCodec ProofsLayers ProofsLayerProps ProofsServices ProofsMulti ProofsTerm ProofsServiceProps
  ProofsAccess ProofsRecv ProofsCall ProofsRoute ProofsObjects.
Ltac Zify.zify_post_hook ::= Z.div_mod_to_equations.

Lemma exchange_via : forall e k dev ip port hdr req tr r, reached dev ip port hdr -> zlen hdr + zlen req <= 65531 ->
  exchange e k (addr_SetLength (dv_addr dev)) (hdr ++ req) = (tr, r) ->
  (exists x, r = inl x) \/ exists g p, g_bytes g = frame_with hdr req /\ at_reply (ev_att e k g) = Some p /\ r = inr p.
Proof.
  intros e k dev ip port hdr req tr r Hl Hz H. destruct r as [x|p]; [left; eexists; reflexivity|]. right.
  unfold exchange, send_dgram in H. destruct (reached_facts _ _ _ _ Hl) as (HU & Hf & _). rewrite HU in H.
  rewrite frame_small, Hf in H by (rewrite zlen_app; lia).
  exists (mkDgram ip port (frame_with hdr req)). fold (frame_with hdr req) in H.
  destruct (at_sent _) in H; [|discriminate]. destruct (at_reply _) eqn:E in H; [|discriminate].
  exists p. split; [reflexivity|]. split; [|reflexivity]. inversion H. subst. exact E.
Qed.
Definition ids_ok (P : Z -> Prop) (e : env) : Prop := forall id, ev_id e = Some id -> is_byte id /\ P id.
Lemma read_returns : forall e me dev ip port hdr o p idx, reached dev ip port hdr -> present me = false -> valid_oid o -> valid_property p -> in_u32 idx ->
  ids_ok (fun id => answers_read hdr id e) e -> exists tr,
  (exists x, ReadProperty e me dev (request o p idx) = (tr, CErr x))
  \/ (exists vs, Forall supported vs /\ ReadProperty e me dev (request o p idx) = (tr, COk (answer o p idx (one_or_list (map shown vs))))).
Proof.
  intros e me dev ip port hdr o p idx Hl Hm Ho Hp Hi HE. assert (Hp' : in_u32 p) by (red in Hp; red; lia).
  unfold ReadProperty. destruct (ev_id e) as [id|] eqn:Hid; [|exists []; left; eexists; reflexivity].
  destruct (HE id Hid) as [Hb HA].
  rewrite (via_header _ _ _ _ _ Hl Hm).
  replace (u8 id) with id by (unfold u8; unfold is_byte in Hb; lia). rewrite enc_read by assumption. cbn [ebuf].
  destruct (reached_facts _ _ _ _ Hl) as (_ & _ & _ & _ & _ & HH & _).
  assert (HZ : zlen hdr + zlen (spec_read_request id o p idx) <= 65531).
  { unfold spec_read_request. rewrite zlen_app. pose proof (reference_len o p idx Hp' Hi). change (zlen (spec_request id 12)) with 4. lia. }
  unfold retryCount. cbn [rp_loop]. destruct (exchange e 0 (addr_SetLength (dv_addr dev)) (hdr ++ spec_read_request id o p idx)) as [tr r] eqn:EX.
  destruct (exchange_via _ _ _ _ _ _ _ _ _ Hl HZ EX) as [[x ->]|(g & pl & Hg & Hr & ->)].
  { exists (tr ++ []). left. eexists. reflexivity. }
  destruct pl as [b|c k]; [|exists tr; left; eexists; reflexivity].
  specialize (HA 0%nat g o p idx Hg). rewrite Hr in HA. destruct HA as (vs & -> & Hv).
  destruct (read_ack id o p idx vs Ho Hp' Hi Hv) as (d1 & d2 & E1 & E2 & E3). rewrite E1, E2, E3.
  exists tr. right. exists vs. split; [exact Hv|reflexivity].
Qed.
Lemma rpm_loop_returns : forall fuel dev ip port hdr id xs n k e last, reached dev ip port hdr -> zlen hdr + zlen (spec_readmulti_request id xs) <= 65531 ->
  answers_multi hdr fuel id e -> exists tr,
  (exists x, rpm_loop fuel n k e (addr_SetLength (dv_addr dev)) (hdr ++ spec_readmulti_request id xs) last = (tr, CErr x))
  \/ (exists ys, Forall access_ok ys /\ Forall2 (fun x y => length (snd y) = length (snd x)) xs ys
      /\ rpm_loop fuel n k e (addr_SetLength (dv_addr dev)) (hdr ++ spec_readmulti_request id xs) last = (tr, COk (map shown_access ys))).
Proof.
  intros fuel dev ip port hdr id xs. induction n as [|n IH]; intros k e last Hl HZ HA; [exists []; left; eexists; reflexivity|].
  cbn [rpm_loop]. destruct (exchange e k (addr_SetLength (dv_addr dev)) (hdr ++ spec_readmulti_request id xs)) as [tr r] eqn:EX.
  set (data := hdr ++ spec_readmulti_request id xs) in *.
  assert (R : forall err, exists tr0,
   (exists x, (let '(tr', r') := rpm_loop fuel n (S k) e (addr_SetLength (dv_addr dev)) data err in (tr ++ tr', r')) = (tr0, CErr x))
   \/ (exists ys, Forall access_ok ys /\ Forall2 (fun x y => length (snd y) = length (snd x)) xs ys
      /\ (let '(tr', r') := rpm_loop fuel n (S k) e (addr_SetLength (dv_addr dev)) data err in (tr ++ tr', r')) = (tr0, COk (map shown_access ys)))).
  { intro err. destruct (IH (S k) e err Hl HZ HA) as (tr0 & [[x E]|(ys & H1 & H2 & E)]); rewrite E; exists (tr ++ tr0); [left; eexists; reflexivity|].
    right. exists ys. auto. }
  destruct (exchange_via _ _ _ _ _ _ _ _ _ Hl HZ EX) as [[x ->]|(g & pl & Hg & Hr & ->)]; [apply R|].
  destruct pl as [b|c z]; [|apply R].
  specialize (HA k g xs Hg). rewrite Hr in HA. destruct HA as [Hf [(ys & -> & Hy & H2)|(ys & o & rs & x & rest & -> & Hy & Ho & Hrs & Hx)]].
  - destruct (readmulti_ack id ys Hy) as (d1 & E1 & E2). rewrite E1. destruct (E2 fuel Hf) as [d2 E3]. rewrite E3. exists tr. right. exists ys. auto.
  - destruct (failing_ack id ys o rs x rest Hy Ho Hrs Hx) as (d1 & E1 & E2). rewrite E1. destruct (E2 fuel Hf) as (objs & d2 & E3). rewrite E3. apply R.
Qed.
Lemma readmulti_returns : forall fuel e me dev ip port hdr xs, reached dev ip port hdr -> present me = false -> dv_maxapdu dev <= 65531 ->
  Forall (fun x => valid_oid (fst x) /\ Forall (fun p => in_u32 (fst p) /\ in_u32 (snd p)) (snd x)) xs ->
  (forall id, zlen (spec_readmulti_request id xs) < 4294967288) ->
  ids_ok (fun id => answers_multi hdr fuel id e) e -> exists tr,
  (exists x, ReadMultiProperty fuel e me dev (mkMPD (map read_object xs)) = (tr, CErr x))
  \/ (exists ys, Forall access_ok ys /\ Forall2 (fun x y => length (snd y) = length (snd x)) xs ys
      /\ ReadMultiProperty fuel e me dev (mkMPD (map read_object xs)) = (tr, COk (map shown_access ys))).
Proof.
  intros fuel e me dev ip port hdr xs Hl Hm Hmx Hx Hzz HE. unfold ReadMultiProperty.
  destruct (ev_id e) as [id|] eqn:Hid; [|exists []; left; eexists; reflexivity].
  destruct (HE id Hid) as [Hb HA]. destruct (dv_maxapdu dev =? 0); [exists []; left; eexists; reflexivity|].
  rewrite (via_header _ _ _ _ _ Hl Hm).
  replace (u8 id) with id by (unfold u8; unfold is_byte in Hb; lia). rewrite enc_readmulti by assumption. cbn [ebuf].
  destruct (dv_maxapdu dev <? _) eqn:EL; [exists []; left; eexists; reflexivity|].
  apply (rpm_loop_returns fuel dev ip port hdr id xs); try assumption.
  destruct (reached_facts _ _ _ _ Hl) as (_ & _ & _ & _ & _ & HH & _). rewrite zlen_app in EL. specialize (Hzz id). pose proof (zlen_nonneg (spec_readmulti_request id xs)).
  unfold u32 in EL. rewrite Z.mod_small in EL by lia. lia.
Qed.
Lemma shown_uint : forall s n, supported s -> shown s = VUint n -> in_u32 n.
Proof.
  intros [v|l] n Hs H; [|discriminate]. cbn in H, Hs. destruct v; cbn in H; try discriminate; inversion H; subst; exact Hs.
Qed.
Lemma shown_oid : forall s o, supported s -> shown s = VOid o -> valid_oid o.
Proof.
  intros [v|l] o Hs H; [|discriminate]. cbn in H, Hs. destruct v; cbn in H; try discriminate; inversion H; subst; exact Hs.
Qed.
Lemma ids_of_valid : forall rs ids, Forall result_ok rs -> ids_of (map shown_result rs) = Some ids -> Forall valid_oid ids.
Proof.
  induction rs as [|r rs IH]; intros ids Hr H; cbn in H; [inversion H; constructor|].
  apply Forall_cons_iff in Hr. destruct Hr as [(_ & _ & Hv) Hrs].
  destruct (one_or_list (map shown (rs_values r))) eqn:E; try discriminate.
  destruct (ids_of (map shown_result rs)) eqn:EI; [|discriminate]. inversion H. subst. constructor; [|apply IH; auto].
  destruct (rs_values r) as [|s [|s' l']]; try discriminate. cbn in E. apply (shown_oid s); [|exact E]. inversion Hv. assumption.
Qed.
Definition wf (m : list (object_id * object)) : Prop := Forall (fun e => o_id (snd e) = fst e /\ valid_oid (fst e)) m.
Lemma om_set_wf : forall m k o, wf m -> o_id o = k -> valid_oid k -> wf (om_set k o m).
Proof.
  unfold wf. induction m as [|[k' o'] m IH]; intros k o Hm Hk Hv; cbn [om_set].
  - constructor; [split; assumption|constructor].
  - apply Forall_cons_iff in Hm. destruct Hm as [H1 H2]. destruct (oid_eqb k k') eqn:E.
    + apply oid_eqb_eq in E. subst k'. constructor; [split; [exact Hk|exact Hv]|exact H2].
    + constructor; [exact H1|]. apply IH; assumption.
Qed.
Lemma objectCopy_wf : forall ids m, wf m -> Forall valid_oid ids -> wf (objectCopy m ids).
Proof.
  induction ids as [|id ids IH]; intros m Hm Hv; [exact Hm|]. apply Forall_cons_iff in Hv. destruct Hv as [H1 H2].
  unfold objectCopy. cbn [fold_left]. apply IH; [|exact H2]. apply om_set_wf; [exact Hm|reflexivity|exact H1].
Qed.
Lemma chunk_request_small : forall id dev c, Forall in_u32 (indices c) -> zlen (indices c) <= 100000000 ->
  zlen (spec_readmulti_request id (list_request dev c)) < 4294967288.
Proof. intros id dev c H1 H2. pose proof (list_request_len id dev c _ H2 H1). lia. Qed.
Lemma chunks_return : forall fuel envs me dev ip port hdr cs k m, reached dev ip port hdr -> present me = false -> valid_oid (dv_id dev) ->
  dv_maxapdu dev <= 65531 -> (forall j, ids_ok (fun id => answers_multi hdr fuel id (envs j)) (envs j)) ->
  (forall c, In c cs -> Forall in_u32 (indices c) /\ zlen (indices c) <= 100000000) -> wf m ->
  exists tr, (exists x, read_chunks fuel k envs me dev cs m = (tr, CErr x)) \/ (exists m', wf m' /\ read_chunks fuel k envs me dev cs m = (tr, COk m')).
Proof.
  intros fuel envs me dev ip port hdr. induction cs as [|c cs IH]; intros k m Hl Hm Ho Hmx HE Hc Hw.
  { exists []. right. exists m. split; [exact Hw|reflexivity]. }
  destruct (Hc c (or_introl eq_refl)) as [Hi Hz]. cbn [read_chunks]. destruct c as [start stop].
  unfold objectsRange. change start with (fst (start, stop)). change stop with (snd (start, stop)).
  set (c := (start, stop)) in *. rewrite range_props_eq by assumption.
  assert (EQ : [mkObj [] [] (dv_id dev) (map (fun i => mkProp propObjectList i VNil 0) (indices c))] = map read_object (list_request (dv_id dev) c)).
  { unfold list_request, read_object. cbn [map fst snd]. rewrite map_map. reflexivity. }
  rewrite EQ. destruct (readmulti_returns fuel (envs k) me dev ip port hdr (list_request (dv_id dev) c)) as (tr & [[x E]|(ys & Hy & H2 & E)]); try assumption; try apply HE.
  - unfold list_request. constructor; [|constructor]. cbn [fst snd]. split; [exact Ho|]. rewrite Forall_map. cbn [fst snd].
    eapply Forall_impl; [|exact Hi]. intros a Ha. split; [unfold in_u32; lia|exact Ha].
  - intro id. apply chunk_request_small; assumption.
  - rewrite E. cbn [cbind]. exists tr. left. eexists. reflexivity.
  - rewrite E. unfold list_request in H2. inversion H2 as [|? y ? ys' Hlen Hnil Ha Hb]. subst. inversion Hnil. subst. cbn [map cbind shown_access o_props].
    apply Forall_inv in Hy. destruct Hy as (_ & _ & Hrs).
    destruct (ids_of (map shown_result (snd y))) as [ids|] eqn:EI; [|exists (tr ++ []); left; eexists; reflexivity].
    pose proof (ids_of_valid _ _ Hrs EI) as HV. cbn [cbind].
    destruct (IH (S k) (objectCopy m ids)) as (tr' & [[x E']|(m' & Hw' & E')]); try assumption; try (intros; apply Hc; right; assumption).
    + apply objectCopy_wf; assumption.
    + rewrite E'. eexists. left. eexists. reflexivity.
    + rewrite E'. eexists. right. exists m'. split; [exact Hw'|reflexivity].
Qed.
Lemma objectList_returns : forall fuel envs me dev ip port hdr, reached dev ip port hdr -> present me = false -> valid_oid (dv_id dev) ->
  20 <= dv_maxapdu dev <= 65531 -> ids_ok (fun id => answers_read hdr id (envs 0%nat)) (envs 0%nat) ->
  (forall j, ids_ok (fun id => answers_multi hdr fuel id (envs j)) (envs j)) -> exists tr,
  (exists x, objectList fuel envs me dev = (tr, CErr x)) \/ (exists k m, wf m /\ objectList fuel envs me dev = (tr, COk (k, m))).
Proof.
  intros fuel envs me dev ip port hdr Hl Hm Ho Hmx H0 HE. unfold objectList, objectListLen.
  destruct (read_returns (envs 0%nat) me dev ip port hdr (dv_id dev) 76 0 Hl Hm Ho) as (tr & [[x E]|(vs & Hv & E)]);
    try assumption; try (unfold valid_property, in_u32; lia); unfold request in E; unfold propObjectList; rewrite E.
  { exists tr. left. eexists. reflexivity. }
  cbn [cbind answer pd_object o_props pr_data].
  destruct (one_or_list (map shown vs)) eqn:EV; try (exists (tr ++ []); left; eexists; reflexivity).
  assert (HN : in_u32 n).
  { destruct vs as [|s [|s' l']]; try discriminate. cbn in EV. apply (shown_uint s); [|exact EV]. inversion Hv. assumption. }
  cbn [cbind]. destruct (chunks_fit (dv_maxapdu dev) n ltac:(lia) ltac:(unfold in_u32 in HN; lia)) as (cs & EC & HP & _). rewrite EC.
  destruct (chunks_return fuel envs me dev ip port hdr cs 1 []) as (tr' & [[x E']|(m & Hw & E')]); try assumption; try lia.
  - intros c Hin. pose proof HP as [_ HF]. rewrite Forall_forall in HF. destruct (HF c Hin) as (_ & _ & Hs). split; [|lia].
    apply Forall_forall. intros i Hi. pose proof (partition_range _ _ _ _ _ HP Hin Hi). unfold in_u32 in *. lia.
  - constructor.
  - rewrite E'. cbn [cbind]. eexists. left. eexists. reflexivity.
  - rewrite E'. cbn [cbind]. eexists. right. do 2 eexists. split; [exact Hw|reflexivity].
Qed.
Definition has_type (m : list (object_id * object)) (k : object_id) : Prop := existsb (fun e => oid_type (fst e) =? oid_type k) m = true.
Lemma om_set_types : forall m k o k', has_type m k' -> has_type (om_set k o m) k'.
Proof.
  unfold has_type. induction m as [|[k0 o0] m IH]; intros k o k' H; [discriminate|]. cbn [om_set]. cbn [existsb fst] in H.
  destruct (oid_eqb k k0); cbn [existsb fst]; [exact H|]. apply orb_true_iff in H. apply orb_true_iff. destruct H as [H|H]; [left; exact H|right; apply IH; exact H].
Qed.
Lemma set_info_returns : forall ys keys i m, Forall (fun y => length (snd y) = 2%nat) ys ->
  (forall j, (j < length ys)%nat -> exists k, nth_error keys (i + j) = Some k /\ has_type m k) ->
  (exists x, set_info keys i (map shown_access ys) m = CErr x)
  \/ (exists m', set_info keys i (map shown_access ys) m = COk m' /\ forall k, has_type m k -> has_type m' k).
Proof.
  induction ys as [|y ys IH]; intros keys i m H2 Hk; [right; exists m; split; [reflexivity|auto]|].
  apply Forall_cons_iff in H2. destruct H2 as [H2 Hys]. cbn [map set_info shown_access o_props].
  destruct (snd y) as [|r0 [|r1 [|r2 rs]]]; try discriminate. cbn [map].
  destruct (pr_data (shown_result r0)); try (left; eexists; reflexivity). destruct (pr_data (shown_result r1)); try (left; eexists; reflexivity).
  destruct (Hk 0%nat ltac:(cbn; lia)) as (k & Ek & Ht). rewrite Nat.add_0_r in Ek. rewrite Ek. unfold has_type in Ht. rewrite Ht.
  set (m1 := om_set k _ m).
  assert (MONO : forall k', has_type m k' -> has_type m1 k') by (intros k' H; apply om_set_types; exact H).
  destruct (IH keys (S i) m1 Hys) as [[x E]|(m' & E & Hm')].
  - intros j Hj. destruct (Hk (S j) ltac:(cbn; lia)) as (k' & Ek' & Ht'). exists k'. split; [rewrite <- Ek'; f_equal; lia|apply MONO; exact Ht'].
  - left. exists x. exact E.
  - right. exists m'. split; [exact E|]. intros k' H. apply Hm', MONO, H.
Qed.
Lemma forall2_length : forall (A B : Type) (R : A -> B -> Prop) l l', Forall2 R l l' -> length l = length l'.
Proof. intros A B R l l' H. induction H; cbn; congruence. Qed.
Lemma info_returns : forall fuel e me dev ip port hdr objs m, reached dev ip port hdr -> present me = false -> dv_maxapdu dev <= 65531 ->
  (length objs <= 5)%nat -> Forall (fun o => valid_oid (o_id o) /\ has_type m (o_id o)) objs -> ids_ok (fun id => answers_multi hdr fuel id e) e ->
  exists tr, (exists x, objectInformation fuel e me dev objs m = (tr, CErr x))
  \/ (exists m', objectInformation fuel e me dev objs m = (tr, COk m') /\ forall k, has_type m k -> has_type m' k).
Proof.
  intros fuel e me dev ip port hdr objs m Hl Hm Hmx Hlen Ho HE. unfold objectInformation. set (keys := info_keys objs).
  assert (HK : Forall (fun k => valid_oid k /\ has_type m k) keys).
  { unfold keys, info_keys. rewrite Forall_map. apply Forall_forall. intros o Hin. apply filter_In in Hin. rewrite Forall_forall in Ho. apply Ho. apply Hin. }
  assert (HL : (length keys <= 5)%nat).
  { unfold keys, info_keys. rewrite map_length. clear -Hlen. set (f := fun o : object => oid_type (o_id o) <=? maxStandardBacnetType).
    assert (length (filter f objs) <= length objs)%nat; [|lia].
    clear. induction objs as [|o l IH]; [reflexivity|]. cbn [filter]. destruct (f o); cbn [length]; lia. }
  assert (ER : info_request keys = mkMPD (map read_object (names_request keys))).
  { unfold info_request, names_request. rewrite map_map. reflexivity. }
  rewrite ER. destruct (readmulti_returns fuel e me dev ip port hdr (names_request keys)) as (tr & [[x E]|(ys & Hy & H2 & E)]); try assumption.
  - unfold names_request. rewrite Forall_map. eapply Forall_impl; [|exact HK]. intros k [Hk _]. cbn [fst snd]. split; [exact Hk|].
    repeat constructor; cbn; unfold whole; lia.
  - intro id. rewrite names_request_len. unfold zlen. lia.
  - rewrite E. exists tr. left. eexists. reflexivity.
  - rewrite E. cbn [cbind].
    assert (LY : length ys = length keys) by (apply forall2_length in H2; unfold names_request in H2; rewrite map_length in H2; lia).
    assert (L2 : Forall (fun y => length (snd y) = 2%nat) ys).
    { clear -H2. unfold names_request in H2. revert ys H2. induction keys as [|k l IH]; intros ys H; inversion H; subst; constructor; [assumption|]. apply IH. assumption. }
    destruct (set_info_returns ys (keys ++ repeat (mkOid 0 0) (length objs - length keys)) 0 m L2) as [[x E']|(m' & E' & Hm')].
    + intros j Hj. cbn [Nat.add]. rewrite nth_error_app1 by lia. destruct (nth_error keys j) as [k|] eqn:EN; [|apply nth_error_None in EN; lia].
      exists k. split; [reflexivity|]. rewrite Forall_forall in HK. apply (HK k). eapply nth_error_In. exact EN.
    + rewrite E'. eexists. left. eexists. reflexivity.
    + rewrite E'. eexists. right. exists m'. split; [reflexivity|exact Hm'].
Qed.
Lemma all_info_returns : forall fuel envs me dev ip port hdr n k objs m, reached dev ip port hdr -> present me = false -> dv_maxapdu dev <= 65531 ->
  Forall (fun o => valid_oid (o_id o) /\ has_type m (o_id o)) objs -> (forall j, ids_ok (fun id => answers_multi hdr fuel id (envs j)) (envs j)) ->
  returns (all_info n fuel k envs me dev objs m).
Proof.
  intros fuel envs me dev ip port hdr. induction n as [|n IH]; intros k objs m Hl Hm Hmx Ho HE; [exact I|].
  cbn [all_info]. destruct objs as [|o objs]; [exact I|]. remember (o :: objs) as os eqn:EO. clear EO.
  assert (SPLIT : Forall (fun o => valid_oid (o_id o) /\ has_type m (o_id o)) (firstn 5 os) /\ Forall (fun o => valid_oid (o_id o) /\ has_type m (o_id o)) (skipn 5 os)).
  { apply Forall_app. rewrite firstn_skipn. exact Ho. }
  destruct (info_returns fuel (envs k) me dev ip port hdr (firstn 5 os) m) as (tr & [[x E]|(m' & E & Hmo)]); try assumption; try apply SPLIT; try apply HE.
  - rewrite firstn_length. lia.
  - rewrite E. exact I.
  - rewrite E. cbn [cbind]. specialize (IH (S k) (skipn 5 os) m' Hl Hm Hmx).
    assert (R : returns (all_info n fuel (S k) envs me dev (skipn 5 os) m')).
    { apply IH; [|exact HE]. eapply Forall_impl; [|apply SPLIT]. intros a [H1 H2]. split; [exact H1|apply Hmo; exact H2]. }
    unfold returns in *. destruct (all_info n fuel (S k) envs me dev (skipn 5 os) m'). exact R.
Qed.
Lemma objects_return : forall fuel order envs me dev ip port hdr, reached dev ip port hdr -> present me = false -> valid_oid (dv_id dev) ->
  20 <= dv_maxapdu dev <= 65531 -> (forall m, Permutation (order m) m) ->
  (forall j id, ev_id (envs j) = Some id -> is_byte id /\ answers_read hdr id (envs j) /\ answers_multi hdr fuel id (envs j)) ->
  returns (Objects fuel order envs me dev).
Proof.
  intros fuel order envs me dev ip port hdr Hl Hm Ho Hmx Hord HE.
  assert (HM : forall j, ids_ok (fun id => answers_multi hdr fuel id (envs j)) (envs j)) by (intros j id Hid; destruct (HE j id Hid) as (A & _ & B); split; assumption).
  unfold Objects. destruct (objectList_returns fuel envs me dev ip port hdr Hl Hm Ho Hmx) as (tr & [[x E]|(k & m & Hw & E)]); try assumption.
  - intros id Hid. destruct (HE _ id Hid) as (A & B & _). split; assumption.
  - rewrite E. exact I.
  - rewrite E. cbn [cbind].
    assert (R : returns (all_info (length (map snd (order m))) fuel k envs me dev (map snd (order m)) m)).
    { apply (all_info_returns fuel envs me dev ip port hdr); try assumption; try lia. rewrite Forall_map. apply Forall_forall. intros [k' o'] Hin. cbn [snd].
      apply (Permutation_in _ (Hord m)) in Hin. pose proof Hw as Hw'. unfold wf in Hw'. rewrite Forall_forall in Hw'. destruct (Hw' _ Hin) as [H1 H2]. cbn [fst snd] in *.
      rewrite H1. split; [exact H2|]. unfold has_type. apply existsb_exists. exists (k', o'). split; [exact Hin|]. cbn. lia. }
    unfold returns in *. destruct (all_info _ fuel k envs me dev (map snd (order m)) m). exact R.
Qed.

(** a device that announces less than 20 octets *)
Lemma small_apdu_crash : forall fuel order envs me dev tr n, 0 <= dv_maxapdu dev < 20 ->
  objectListLen (envs 0%nat) me dev = (tr, COk n) -> Objects fuel order envs me dev = (tr ++ [], CPanic).
Proof.
  intros fuel order envs me dev tr n Hm E. unfold Objects, objectList. rewrite E. cbn [cbind].
  unfold chunks, readPropRequestSize. replace (dv_maxapdu dev / 20) with 0 by lia. reflexivity.
Qed.

(** a property access error fails the whole request, after two transmissions *)
Lemma failing_read : forall fuel e me dev ip port hdr id xs ys o rs x rest, reached dev ip port hdr -> present me = false ->
  ev_id e = Some id -> is_byte id ->
  Forall (fun x => valid_oid (fst x) /\ Forall (fun p => in_u32 (fst p) /\ in_u32 (snd p)) (snd x)) xs ->
  dv_maxapdu dev <= 65531 -> zlen hdr + zlen (spec_readmulti_request id xs) <= dv_maxapdu dev ->
  Forall access_ok ys -> valid_oid o -> Forall result_ok rs -> failure_ok x ->
  (length (spec_failing_ack id ys o rs x rest) <= fuel)%nat ->
  let g := mkDgram ip port (frame_with hdr (spec_readmulti_request id xs)) in
  (forall k, at_sent (ev_att e k g) = true /\ at_reply (ev_att e k g) = Some (PBytes (spec_failing_ack id ys o rs x rest))) ->
  ReadMultiProperty fuel e me dev (mkMPD (map read_object xs)) = ([g; g], CErr (CWrap (CDec (EBacnet (fl_class x) (fl_code x))))).
Proof.
  intros fuel e me dev ip port hdr id xs ys o rs x rest Hl Hm Hid Hb Hx Hmx Hsz Hy Ho Hrs Hfl Hf g HA.
  pose proof (zlen_nonneg (spec_readmulti_request id xs)) as Hnn. destruct (reached_facts _ _ _ _ Hl) as (_ & _ & _ & _ & _ & HH & _).
  assert (EX : forall k, exchange e k (addr_SetLength (dv_addr dev)) (hdr ++ spec_readmulti_request id xs) = ([g], inr (PBytes (spec_failing_ack id ys o rs x rest)))).
  { intro k. destruct (HA k) as [H1 H2]. destruct (reached_facts _ _ _ _ Hl) as (HU & Hfu & _).
    pose proof (exchange_answered e k (addr_SetLength (dv_addr dev)) (hdr ++ spec_readmulti_request id xs) ip port (PBytes (spec_failing_ack id ys o rs x rest))) as X. cbv zeta in X.
    rewrite frame_small, Hfu in X by (rewrite zlen_app; lia). apply X; assumption. }
  unfold ReadMultiProperty. rewrite Hid, (via_header _ _ _ _ _ Hl Hm).
  replace (dv_maxapdu dev =? 0) with false by lia.
  replace (u8 id) with id by (unfold u8; unfold is_byte in Hb; lia). rewrite enc_readmulti by assumption. cbn [ebuf].
  replace (dv_maxapdu dev <? _) with false.
  2:{ rewrite zlen_app. change (zlen [1; 4]) with 2. unfold u32. rewrite Z.mod_small by lia. lia. }
  destruct (failing_ack id ys o rs x rest Hy Ho Hrs Hfl) as (d1 & E1 & E2). destruct (E2 fuel Hf) as (objs & d2 & E3).
  unfold maxReattempt. cbn [rpm_loop]. rewrite !EX, E1, E3. reflexivity.
Qed.
Lemma zero_apdu : forall fuel e me dev rp, dv_maxapdu dev = 0 -> exists x, ReadMultiProperty fuel e me dev rp = ([], CErr x).
Proof. intros. unfold ReadMultiProperty. destruct (ev_id e); [|eexists; reflexivity]. rewrite H. eexists; reflexivity. Qed.
Lemma zero_write : forall e me dev xs g, dv_maxapdu dev = 0 -> (forall id, ev_id e = Some id -> is_byte id) ->
  Forall (fun x => valid_oid (fst x) /\ Forall writing_ok (snd x)) xs ->
  In g (fst (WriteMultiProperty e me dev (mkMPD (map write_object xs)))) -> 4294967296 <= zlen (g_bytes g).
Proof.
  intros e me dev xs g H0 Hid Hx H. pose proof (limit_writemulti _ _ _ _ _ H) as HL.
  destruct (ev_id e) as [id|] eqn:E; [|unfold WriteMultiProperty in H; rewrite E in H; contradiction].
  destruct (request_header (dv_addr dev) me) as [hdr EH].
  pose proof (writemulti_dgram e me dev id xs hdr g E (Hid id eq_refl) Hx EH H) as D.
  unfold send_dgram in D. destruct (addr_UDPAddr (dv_addr dev)) as [[ip port]|]; [|discriminate]. injection D as <-.
  cbn [g_bytes] in *. set (data := hdr ++ _) in *.
  assert (S4 : zlen (send_frame (dv_addr dev) data None) = 4 + zlen data).
  { unfold send_frame, enc_BVLC, newEncoder, write, write_u16, write_u8. cbn [eerr ebuf v_data v_len v_func v_type write]. rewrite !zlen_app. reflexivity. }
  rewrite S4 in *. destruct (Z_lt_ge_dec (4 + zlen data) 4294967296) as [C|C]; [exfalso|clearbody data; clear -C; lia].
  specialize (HL C). assert (4 <= zlen data); [|lia]. unfold data. rewrite !zlen_app. unfold spec_request, spec_confirmed. cbn [app]. rewrite ?zlen_app, !zlen_cons.
  pose proof (zlen_nonneg hdr) as N1. pose proof (zlen_nonneg (flat_map lib_write_spec xs)) as N2. lia.
Qed.
Lemma zero_refused : forall fuel e me dev, dv_maxapdu dev = 0 ->
  (forall rp, exists x, ReadMultiProperty fuel e me dev rp = ([], CErr x))
  /\ ((forall id, ev_id e = Some id -> is_byte id) -> forall xs g, Forall (fun x => valid_oid (fst x) /\ Forall writing_ok (snd x)) xs ->
      In g (fst (WriteMultiProperty e me dev (mkMPD (map write_object xs)))) -> 4294967296 <= zlen (g_bytes g)).
Proof. intros. split; [intro; apply zero_apdu; assumption|]. intros H1 xs g. apply zero_write; assumption. Qed.
