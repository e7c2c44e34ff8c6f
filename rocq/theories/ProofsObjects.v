(** Reading object lists. *)
From Coq Require Import Lia ZifyBool ZifyNat Permutation.
From Verif Require Import ModelClient SpecWire SpecCodec SpecLayers SpecServices SpecObs SpecClient
  ProofsWire ProofsTag ProofsApp ProofsBits ProofsTrunc ProofsCodec ProofsLayers ProofsLayerProps ProofsServices ProofsMulti ProofsTerm ProofsServiceProps ProofsRecv ProofsCall ProofsRoute.
Ltac Zify.zify_post_hook ::= Z.div_mod_to_equations.

(** ** C47 *)
Lemma zseq_app : forall a b s, zseq s (a + b) = zseq s a ++ zseq (s + Z.of_nat a) b.
Proof.
  induction a as [|a IH]; intros b s; [cbn; rewrite Z.add_0_r; reflexivity|].
  cbn [zseq Nat.add app]. rewrite IH. do 3 f_equal. lia.
Qed.
Lemma zseq_length : forall n s, length (zseq s n) = n.
Proof. induction n; intro s; cbn [zseq length]; [reflexivity|rewrite IHn; reflexivity]. Qed.
Lemma zseq_in : forall n s x, In x (zseq s n) <-> s <= x < s + Z.of_nat n.
Proof.
  induction n as [|n IH]; intros s x; cbn [zseq In]; [lia|]. rewrite IH. lia.
Qed.
Lemma zseq_last : forall n s, zseq s (S n) = zseq s n ++ [s + Z.of_nat n].
Proof. intros. replace (S n) with (n + 1)%nat by lia. rewrite zseq_app. reflexivity. Qed.
Lemma full_chunks : forall size n, 0 < size ->
  flat_map indices (map (fun i => (i * size + 1, (i + 1) * size)) (zseq 0 n)) = zseq 1 (n * Z.to_nat size).
Proof.
  intros size n Hs. induction n as [|n IH]; [reflexivity|].
  rewrite zseq_last, map_app, flat_map_app, IH. cbn [map flat_map]. rewrite app_nil_r.
  replace (S n * Z.to_nat size)%nat with (n * Z.to_nat size + Z.to_nat size)%nat by lia. rewrite zseq_app. f_equal.
  unfold indices. cbn [fst snd]. f_equal; lia.
Qed.
Lemma chunks_partition : forall size l, 0 < size -> 0 <= l -> exists cs, chunks size l = ROk cs /\ partition size l cs.
Proof.
  intros size l Hs Hl. unfold chunks. replace (size =? 0) with false by lia. eexists. split; [reflexivity|].
  assert (Hq : 0 <= l / size) by (apply Z.div_pos; lia).
  set (n := l / size) in *. assert (HN : l = n * size + l mod size) by (unfold n; rewrite (Z.mul_comm (l / size)); apply Z.div_mod; lia).
  assert (Hm : 0 <= l mod size < size) by (apply Z.mod_pos_bound; lia).
  set (r := l mod size) in *. clearbody n r. unfold partition. split.
  - rewrite flat_map_app, full_chunks by assumption.
    assert (E : Z.to_nat l = (Z.to_nat n * Z.to_nat size + Z.to_nat r)%nat) by lia.
    rewrite E, zseq_app. f_equal. destruct (n * size + 1 <=? l) eqn:EL.
    + cbn [flat_map]. rewrite app_nil_r. unfold indices. cbn [fst snd]. f_equal; lia.
    + replace (Z.to_nat r) with 0%nat by lia. reflexivity.
  - apply Forall_app. split.
    + apply Forall_forall. intros c Hc. apply in_map_iff in Hc. destruct Hc as (i & <- & Hi). apply zseq_in in Hi. cbn [fst snd].
      assert (0 <= i < n) by lia. assert (i * size <= (n - 1) * size) by (apply Z.mul_le_mono_nonneg_r; lia).
      assert (0 <= i * size) by (apply Z.mul_nonneg_nonneg; lia).
      unfold indices. cbn [fst snd]. unfold zlen. rewrite zseq_length. lia.
    + destruct (n * size + 1 <=? l) eqn:EL; constructor; [|constructor]. cbn [fst snd]. unfold indices, zlen. rewrite zseq_length. cbn [fst snd].
      assert (0 <= n * size) by (apply Z.mul_nonneg_nonneg; lia). lia.
Qed.
Lemma list_request_len : forall inv dev c size, zlen (indices c) <= size -> Forall (fun i => in_u32 i) (indices c) ->
  zlen (spec_readmulti_request inv (list_request dev c)) <= 11 + 7 * size.
Proof.
  intros inv dev c size Hl Hi. unfold spec_readmulti_request, list_request. cbn [flat_map fst snd]. rewrite app_nil_r, zlen_app.
  unfold spec_read_spec. rewrite !zlen_app, ctx_oid_len by lia. change (zlen (spec_request inv 14)) with 4.
  change (zlen (spec_open 1)) with 1. change (zlen (spec_close 1)) with 1.
  assert (H : zlen (flat_map (fun p => spec_ctx_unsigned 0 (fst p) ++ spec_index 1 (snd p)) (map (fun i => (76, i)) (indices c))) <= 7 * zlen (indices c)).
  { clear Hl. induction Hi as [|i l Hi _ IH]; [cbn; lia|]. cbn [map flat_map fst snd]. rewrite !zlen_app, zlen_cons.
    rewrite ctx_unsigned_len by (unfold in_u32; lia). pose proof (index_len 1 i ltac:(lia) Hi). change (usize 76) with 1.
    pose proof (zlen_nonneg l). lia. }
  lia.
Qed.
Lemma partition_range : forall size l cs c i, partition size l cs -> In c cs -> In i (indices c) -> 1 <= i <= l.
Proof.
  intros size l cs c i [_ H] Hc Hi. rewrite Forall_forall in H. destruct (H c Hc) as (H1 & H2 & _).
  unfold indices in Hi. apply zseq_in in Hi. lia.
Qed.
Lemma chunks_fit : forall maxapdu l, 20 <= maxapdu -> 0 <= l < 4294967296 -> exists cs,
  chunks (maxapdu / readPropRequestSize) l = ROk cs /\ partition (maxapdu / 20) l cs
  /\ forall c inv dev, In c cs ->
     2 + zlen (spec_readmulti_request inv (list_request dev c)) <= maxapdu
     /\ (40 <= maxapdu -> 8 + zlen (spec_readmulti_request inv (list_request dev c)) <= maxapdu).
Proof.
  intros m l Hm Hl. unfold readPropRequestSize.
  destruct (chunks_partition (m / 20) l ltac:(lia) ltac:(lia)) as (cs & E & HP). exists cs. split; [exact E|]. split; [exact HP|].
  intros c inv dev Hc. pose proof HP as [_ HF]. rewrite Forall_forall in HF. destruct (HF c Hc) as (_ & _ & Hs).
  assert (HI : Forall (fun i => in_u32 i) (indices c)).
  { apply Forall_forall. intros i Hi. pose proof (partition_range _ _ _ _ _ HP Hc Hi). unfold in_u32. lia. }
  pose proof (list_request_len inv dev c (m / 20) Hs HI). lia.
Qed.

(** ** calls to a local device that answers *)
Lemma reached_facts : forall dev ip port hdr, reached dev ip port hdr ->
  addr_UDPAddr (addr_SetLength (dv_addr dev)) = Some (ip, port) /\ send_func (addr_SetLength (dv_addr dev)) None = 10
  /\ lib_header (addr_SetLength (dv_addr dev)) = hdr /\ 0 <= a_net (addr_SetLength (dv_addr dev)) < 65536 /\ is_byte (a_len (addr_SetLength (dv_addr dev)))
  /\ 2 <= zlen hdr <= 7 /\ (hdr = [1; 4] \/ zlen hdr = 7).
Proof.
  intros dev ip port hdr [[-> (Hn & Ha & Hm & Hl & Hr)]|(net & a & (Hn & Ha & Hnn & Hb & _) & Hr & ->)].
  - assert (E : addr_SetLength (dv_addr dev) = dv_addr dev) by (unfold addr_SetLength; rewrite Ha; reflexivity).
    rewrite E. split; [exact Hr|]. split; [|split; [|split; [lia|split; [exact Hl|split; [cbn; lia|left; reflexivity]]]]].
    + unfold send_func, addr_IsBroadcast, addr_IsSubBroadcast, GlobalBroadcast. rewrite Hn, Ha, Hm. reflexivity.
    + unfold lib_header. rewrite Hn. reflexivity.
  - split; [rewrite udp_setlength; exact Hr|]. unfold addr_SetLength. rewrite Ha. change (0 <? zlen [a]) with true. cbv iota.
    split; [unfold send_func; cbn [a_adr]; reflexivity|]. pose proof (station_npdu net [a] 255) as SN. change (zlen [a]) with 1 in SN.
    split; [|cbn [a_net a_len]; split; [lia|]; split; [unfold is_byte; lia|]].
    + unfold lib_header. cbn [a_net a_len a_adr]. rewrite Hn. replace (net =? 0) with false by lia. symmetry. rewrite SN by lia. reflexivity.
    + rewrite SN by lia. cbn. lia.
Qed.
Lemma via_header : forall dev ip port hdr me, reached dev ip port hdr -> present me = false ->
  enc_NPDU (request_npdu (addr_SetLength (dv_addr dev)) me) newEncoder = ROk (mkEnc hdr None).
Proof.
  intros dev ip port hdr me H Hp. destruct (reached_facts _ _ _ _ H) as (_ & _ & E & Hn & Hl & _). rewrite header_exact, E by assumption. reflexivity.
Qed.
Lemma via_exchange : forall fuel e id req ack dev ip port hdr, reached dev ip port hdr -> serves_via hdr fuel e id req ack -> zlen hdr + zlen req <= 65531 ->
  exchange e 0 (addr_SetLength (dv_addr dev)) (hdr ++ req) = ([mkDgram ip port (frame_with hdr req)], inr (PBytes ack)).
Proof.
  intros fuel e id req ack dev ip port hdr Hl (_ & _ & _ & Hs) Hz. destruct (reached_facts _ _ _ _ Hl) as (HU & Hf & _).
  destruct (Hs (mkDgram ip port (frame_with hdr req)) eq_refl) as [H1 H2].
  pose proof (exchange_answered e 0 (addr_SetLength (dv_addr dev)) (hdr ++ req) ip port (PBytes ack)) as X. cbv zeta in X.
  rewrite frame_small, Hf in X by (rewrite zlen_app; lia). apply X; assumption.
Qed.
Lemma via_read : forall fuel e id me dev ip port hdr o p idx vs, reached dev ip port hdr -> present me = false ->
  valid_oid o -> valid_property p -> in_u32 idx -> Forall supported vs ->
  serves_via hdr fuel e id (spec_read_request id o p idx) (spec_read_ack id o p idx vs) ->
  ReadProperty e me dev (request o p idx)
  = ([mkDgram ip port (frame_with hdr (spec_read_request id o p idx))], COk (answer o p idx (one_or_list (map shown vs)))).
Proof.
  intros fuel e id me dev ip port hdr o p idx vs Hl Hm Ho Hp Hi Hv Hs. assert (Hp' : in_u32 p) by (red in Hp; red; lia).
  assert (HZ : zlen (spec_read_request id o p idx) <= 65524).
  { unfold spec_read_request. rewrite zlen_app. pose proof (reference_len o p idx Hp' Hi). change (zlen (spec_request id 12)) with 4. lia. }
  pose proof (via_exchange _ _ _ _ _ _ _ _ _ Hl Hs ltac:(pose proof (reached_facts _ _ _ _ Hl) as (_ & _ & _ & _ & _ & HH & _); lia)) as EX. destruct Hs as (Hid & Hb & _).
  unfold ReadProperty. rewrite Hid, (via_header _ _ _ _ _ Hl Hm).
  replace (u8 id) with id by (unfold u8; unfold is_byte in Hb; lia). rewrite enc_read by assumption. cbn [ebuf].
  unfold retryCount. cbn [rp_loop]. rewrite EX. destruct (read_ack id o p idx vs Ho Hp' Hi Hv) as (d1 & d2 & E1 & E2 & E3). rewrite E1, E2, E3. reflexivity.
Qed.
Lemma via_readmulti : forall fuel e id me dev ip port hdr xs ys, reached dev ip port hdr -> present me = false ->
  Forall (fun x => valid_oid (fst x) /\ Forall (fun p => in_u32 (fst p) /\ in_u32 (snd p)) (snd x)) xs -> Forall access_ok ys ->
  dv_maxapdu dev <= 65531 -> zlen hdr + zlen (spec_readmulti_request id xs) <= dv_maxapdu dev ->
  serves_via hdr fuel e id (spec_readmulti_request id xs) (spec_readmulti_ack id ys) ->
  ReadMultiProperty fuel e me dev (mkMPD (map read_object xs))
  = ([mkDgram ip port (frame_with hdr (spec_readmulti_request id xs))], COk (map shown_access ys)).
Proof.
  intros fuel e id me dev ip port hdr xs ys Hl Hm Hx Hy Hmx Hsz Hs.
  pose proof (zlen_nonneg (spec_readmulti_request id xs)) as Hnn. destruct (reached_facts _ _ _ _ Hl) as (_ & _ & _ & _ & _ & HH & _).
  pose proof (via_exchange _ _ _ _ _ _ _ _ _ Hl Hs ltac:(lia)) as EX. destruct Hs as (Hid & Hb & Hf & _).
  unfold ReadMultiProperty. rewrite Hid, (via_header _ _ _ _ _ Hl Hm).
  replace (dv_maxapdu dev =? 0) with false by lia.
  replace (u8 id) with id by (unfold u8; unfold is_byte in Hb; lia). rewrite enc_readmulti by assumption. cbn [ebuf].
  replace (dv_maxapdu dev <? _) with false.
  2:{ rewrite zlen_app. unfold u32. rewrite Z.mod_small by lia. lia. }
  unfold maxReattempt. cbn [rpm_loop]. rewrite EX. destruct (readmulti_ack id ys Hy) as (d1 & E1 & E2). rewrite E1.
  destruct (E2 fuel Hf) as [d2 E3]. rewrite E3. reflexivity.
Qed.

(** ** the object list *)
Lemma oid_eqb_eq : forall a b, oid_eqb a b = true <-> a = b.
Proof.
  intros [t i] [t' i']. unfold oid_eqb. cbn. split; [intro H; f_equal; lia|intro H; injection H as -> ->; lia].
Qed.
Lemma oid_eqb_refl : forall a, oid_eqb a a = true. Proof. intro. apply oid_eqb_eq. reflexivity. Qed.
Lemma oid_eqb_neq : forall a b, a <> b -> oid_eqb a b = false.
Proof. intros a b H. destruct (oid_eqb a b) eqn:E; [apply oid_eqb_eq in E; contradiction|reflexivity]. Qed.
Lemma om_set_new : forall m k o, ~ In k (map fst m) -> om_set k o m = m ++ [(k, o)].
Proof.
  induction m as [|[k' o'] m IH]; intros k o H; [reflexivity|]. cbn [om_set app]. cbn [map fst In] in H.
  rewrite oid_eqb_neq by (intro C; apply H; left; congruence). rewrite IH by tauto. reflexivity.
Qed.
Lemma objectCopy_new : forall ids done, NoDup (done ++ ids) -> objectCopy (bare done) ids = bare (done ++ ids).
Proof.
  induction ids as [|id ids IH]; intros done H; [cbn; rewrite app_nil_r; reflexivity|].
  unfold objectCopy. cbn [fold_left]. rewrite om_set_new.
  - replace (bare done ++ [(id, mkObj [] [] id [])]) with (bare (done ++ [id])) by (unfold bare; rewrite map_app; reflexivity).
    change (objectCopy (bare (done ++ [id])) ids = bare (done ++ id :: ids)). rewrite IH; rewrite <- app_assoc; [reflexivity|exact H].
  - unfold bare. rewrite map_map. cbn [fst]. rewrite map_id. apply NoDup_remove_2 in H. intro C. apply H. apply in_or_app. left. exact C.
Qed.
Lemma range_props_eq : forall c, Forall in_u32 (indices c) -> range_props (fst c) (snd c) = map (fun i => mkProp propObjectList i VNil 0) (indices c).
Proof.
  intros c H. unfold range_props. fold (indices c). apply map_ext_in. intros i Hi. rewrite Forall_forall in H. specialize (H i Hi). red in H.
  f_equal. unfold u32. apply Z.mod_small. lia.
Qed.
Lemma ids_of_list : forall ids l, ids_of (map shown_result (map (fun i => mkResult 76 i [SVal (VOid (entry ids i))]) l)) = Some (map (entry ids) l).
Proof.
  induction l as [|i l IH]; [reflexivity|]. cbn [map ids_of shown_result rs_values shown as_read one_or_list pr_data rs_prop rs_index]. rewrite IH. reflexivity.
Qed.
Lemma via_range : forall fuel e id me dev ip port hdr ids c, reached dev ip port hdr -> present me = false -> valid_oid (dv_id dev) ->
  dv_maxapdu dev <= 65531 -> zlen hdr + zlen (spec_readmulti_request id (list_request (dv_id dev) c)) <= dv_maxapdu dev ->
  Forall in_u32 (indices c) -> indices c <> [] -> Forall (fun i => valid_oid (entry ids i)) (indices c) ->
  serves_via hdr fuel e id (spec_readmulti_request id (list_request (dv_id dev) c)) (spec_readmulti_ack id (list_answer (dv_id dev) ids c)) ->
  objectsRange fuel e me dev (fst c) (snd c)
  = ([mkDgram ip port (frame_with hdr (spec_readmulti_request id (list_request (dv_id dev) c)))], COk (map (entry ids) (indices c))).
Proof.
  intros fuel e id me dev ip port hdr ids c Hl Hm Ho Hmx Hsz Hi Hne Hv Hs. unfold objectsRange. rewrite range_props_eq by assumption.
  assert (EQ : [mkObj [] [] (dv_id dev) (map (fun i => mkProp propObjectList i VNil 0) (indices c))] = map read_object (list_request (dv_id dev) c)).
  { unfold list_request, read_object. cbn [map fst snd]. rewrite map_map. reflexivity. }
  rewrite EQ, (via_readmulti fuel e id me dev ip port hdr (list_request (dv_id dev) c) (list_answer (dv_id dev) ids c)); try assumption.
  - cbn [cbind list_answer map shown_access fst snd o_props]. rewrite ids_of_list. reflexivity.
  - unfold list_request. constructor; [|constructor]. cbn [fst snd]. split; [exact Ho|]. rewrite Forall_map. cbn [fst snd].
    eapply Forall_impl; [|exact Hi]. intros a Ha. split; [unfold in_u32; lia|exact Ha].
  - unfold list_answer. constructor; [|constructor]. split; [exact Ho|]. cbn [fst snd]. split; [destruct (indices c); [contradiction|discriminate]|].
    rewrite Forall_map. rewrite Forall_forall in *. intros i Hin. split; [unfold in_u32; cbn; lia|]. split; [apply Hi; exact Hin|].
    cbn [rs_values]. constructor; [|constructor]. cbn. apply Hv. exact Hin.
Qed.
Lemma nodup_app_l : forall (A : Type) (l l' : list A), NoDup (l ++ l') -> NoDup l.
Proof.
  induction l as [|x l IH]; intros l' H; [constructor|]. cbn in H. apply NoDup_cons_iff in H. destruct H as [H1 H2].
  constructor; [intro C; apply H1; apply in_or_app; left; exact C|eapply IH; exact H2].
Qed.
Lemma read_chunks_ok : forall fuel envs inv me dev ip port hdr ids cs k done, reached dev ip port hdr -> present me = false -> valid_oid (dv_id dev) ->
  dv_maxapdu dev <= 65531 ->
  (forall c, In c cs -> forall id, zlen hdr + zlen (spec_readmulti_request id (list_request (dv_id dev) c)) <= dv_maxapdu dev) ->
  (forall c, In c cs -> Forall in_u32 (indices c) /\ indices c <> [] /\ Forall (fun i => valid_oid (entry ids i)) (indices c)) ->
  NoDup (done ++ map (entry ids) (flat_map indices cs)) ->
  (forall j c, nth_error cs j = Some c -> serves_via hdr fuel (envs (k + j)%nat) (inv (k + j)%nat)
     (spec_readmulti_request (inv (k + j)%nat) (list_request (dv_id dev) c)) (spec_readmulti_ack (inv (k + j)%nat) (list_answer (dv_id dev) ids c))) ->
  read_chunks fuel k envs me dev cs (bare done)
  = (frames (list_frame hdr ip port (dv_id dev)) inv k cs, COk (bare (done ++ map (entry ids) (flat_map indices cs)))).
Proof.
  intros fuel envs inv me dev ip port hdr ids cs. induction cs as [|c cs IH]; intros k done Hl Hm Ho Hmx Hsz Hok Hnd Hs.
  { cbn. rewrite app_nil_r. reflexivity. }
  assert (Hc : In c (c :: cs)) by (left; reflexivity). destruct (Hok c Hc) as (H1 & H2 & H3).
  destruct c as [start stop]. cbn [read_chunks].
  pose proof (Hs 0%nat _ eq_refl) as Hs0. rewrite Nat.add_0_r in Hs0.
  pose proof (via_range fuel (envs k) (inv k) me dev ip port hdr ids (start, stop) Hl Hm Ho Hmx (Hsz _ Hc _) H1 H2 H3 Hs0) as E.
  cbn [fst snd] in E. rewrite E. cbn [cbind flat_map] in *. rewrite map_app, app_assoc in Hnd.
  rewrite objectCopy_new by (apply nodup_app_l in Hnd; exact Hnd).
  rewrite IH; try assumption.
  - cbn [frames]. rewrite map_app, app_assoc. reflexivity.
  - intros c' Hc'. apply Hsz. right. exact Hc'.
  - intros c' Hc'. apply Hok. right. exact Hc'.
  - intros j c' Hj. replace (S k + j)%nat with (k + S j)%nat by lia. apply Hs. exact Hj.
Qed.
Lemma entry_seq : forall ids, map (entry ids) (zseq 1 (length ids)) = ids.
Proof.
  intro ids. assert (H : forall l pre, map (entry (pre ++ l)) (zseq (1 + Z.of_nat (length pre)) (length l)) = l).
  { induction l as [|x l IH]; intro pre; [reflexivity|]. cbn [length zseq map]. f_equal.
    - unfold entry. rewrite app_nth2 by lia. replace (Z.to_nat (1 + Z.of_nat (length pre) - 1) - length pre)%nat with 0%nat by lia. reflexivity.
    - specialize (IH (pre ++ [x])). rewrite <- app_assoc in IH. cbn [app] in IH. rewrite app_length in IH. cbn [length] in IH.
      replace (1 + Z.of_nat (length pre) + 1) with (1 + Z.of_nat (length pre + 1)) by lia. exact IH. }
  exact (H ids []).
Qed.
Lemma objectList_ok : forall fuel envs inv me dev ip port hdr ids cs, reached dev ip port hdr -> present me = false -> valid_oid (dv_id dev) ->
  20 <= dv_maxapdu dev <= 65531 -> NoDup ids -> Forall valid_oid ids -> zlen ids < 4294967296 -> (hdr = [1; 4] \/ 40 <= dv_maxapdu dev) ->
  chunks (dv_maxapdu dev / readPropRequestSize) (zlen ids) = ROk cs ->
  serves_via hdr fuel (envs 0%nat) (inv 0%nat) (spec_read_request (inv 0%nat) (dv_id dev) 76 0) (spec_read_ack (inv 0%nat) (dv_id dev) 76 0 [SVal (VUint (zlen ids))]) ->
  (forall j c, nth_error cs j = Some c -> serves_via hdr fuel (envs (1 + j)%nat) (inv (1 + j)%nat)
     (spec_readmulti_request (inv (1 + j)%nat) (list_request (dv_id dev) c)) (spec_readmulti_ack (inv (1 + j)%nat) (list_answer (dv_id dev) ids c))) ->
  objectList fuel envs me dev
  = (mkDgram ip port (frame_with hdr (spec_read_request (inv 0%nat) (dv_id dev) 76 0)) :: frames (list_frame hdr ip port (dv_id dev)) inv 1 cs,
     COk (S (length cs), bare ids)).
Proof.
  intros fuel envs inv me dev ip port hdr ids cs Hl Hm Ho Hmx Hnd Hv Hz H40 Hc Hs0 Hs.
  unfold objectList, objectListLen. pose proof (zlen_nonneg ids) as Hnn.
  pose proof (via_read fuel (envs 0%nat) (inv 0%nat) me dev ip port hdr (dv_id dev) 76 0 [SVal (VUint (zlen ids))] Hl Hm Ho) as E.
  unfold request, propObjectList in *. rewrite E; try assumption; [|unfold valid_property; lia|unfold in_u32; lia|constructor; [cbn; unfold in_u32; lia|constructor]].
  cbn [cbind answer pd_object o_props map shown as_read one_or_list pr_data]. rewrite Hc.
  destruct (chunks_fit (dv_maxapdu dev) (zlen ids) ltac:(lia) ltac:(lia)) as (cs' & Hc' & HP & Hfit).
  assert (cs' = cs) by congruence. subst cs'.
  pose proof HP as [HF HFA]. rewrite Forall_forall in HFA.
  assert (EI : map (entry ids) (flat_map indices cs) = ids).
  { rewrite HF. replace (Z.to_nat (zlen ids)) with (length ids) by (unfold zlen; lia). apply entry_seq. }
  change (@nil (object_id * object)) with (bare []).
  rewrite (read_chunks_ok fuel envs inv me dev ip port hdr ids cs 1 []); try assumption; try lia.
  - cbn [cbind app]. rewrite EI. cbn [app]. rewrite app_nil_r. reflexivity.
  - intros c Hin id. destruct (Hfit c id (dv_id dev) Hin) as [F1 F2]. destruct H40 as [->|H40]; [change (zlen [1; 4]) with 2; exact F1|].
    specialize (F2 H40). destruct (reached_facts _ _ _ _ Hl) as (_ & _ & _ & _ & _ & HZ & _). lia.
  - intros c Hin. destruct (HFA c Hin) as (A1 & A2 & A3). split; [|split].
    + apply Forall_forall. intros i Hi. pose proof (partition_range _ _ _ _ _ HP Hin Hi). unfold in_u32. lia.
    + unfold indices. destruct (Z.to_nat (snd c - fst c + 1)) eqn:EE; [lia|discriminate].
    + apply Forall_forall. intros i Hi. pose proof (partition_range _ _ _ _ _ HP Hin Hi). rewrite Forall_forall in Hv. apply Hv.
      unfold entry. apply nth_In. unfold zlen in *. lia.
  - cbn [app]. rewrite EI. exact Hnd.
Qed.

(** ** names *)
Definition mem (k : object_id) (l : list object_id) : bool := existsb (oid_eqb k) l.
Lemma mem_in : forall k l, mem k l = true <-> In k l.
Proof.
  intros. unfold mem. rewrite existsb_exists. split; [intros (y & H & E); apply oid_eqb_eq in E; subst; exact H|intro H; exists k; split; [exact H|apply oid_eqb_refl]].
Qed.
Definition state (name desc : object_id -> list Z) (done ids : list object_id) : list (object_id * object) :=
  map (fun id => (id, if mem id done then mkObj (name id) (desc id) id [] else mkObj [] [] id [])) ids.
Lemma state_get : forall name desc done ids k, In k ids ->
  om_get k (state name desc done ids) = Some (if mem k done then mkObj (name k) (desc k) k [] else mkObj [] [] k []).
Proof.
  intros name desc done. induction ids as [|id ids IH]; intros k H; [contradiction|]. cbn [state map om_get].
  destruct (oid_eqb k id) eqn:E; [apply oid_eqb_eq in E; subst; reflexivity|]. apply IH. destruct H as [H|H]; [subst; rewrite oid_eqb_refl in E; discriminate|exact H].
Qed.
Lemma state_set : forall name desc done ids k, In k ids -> NoDup ids ->
  om_set k (mkObj (name k) (desc k) k []) (state name desc done ids) = state name desc (k :: done) ids.
Proof.
  intros name desc done. induction ids as [|id ids IH]; intros k H Hnd; [contradiction|]. apply NoDup_cons_iff in Hnd. destruct Hnd as [Hni Hnd].
  cbn [state map om_set]. destruct (oid_eqb k id) eqn:E.
  - apply oid_eqb_eq in E. subst id. f_equal.
    + unfold mem. cbn [existsb]. rewrite oid_eqb_refl. reflexivity.
    + unfold state. apply map_ext_in. intros a Ha. unfold mem. cbn [existsb]. rewrite (oid_eqb_neq a k) by (intro C; subst; contradiction). reflexivity.
  - f_equal.
    + f_equal. unfold mem. cbn [existsb]. replace (oid_eqb id k) with false; [reflexivity|].
      symmetry. apply oid_eqb_neq. intro C. subst. rewrite oid_eqb_refl in E. discriminate.
    + apply IH; [|exact Hnd]. destruct H as [H|H]; [subst; rewrite oid_eqb_refl in E; discriminate|exact H].
Qed.
Lemma state_type : forall name desc done ids k, In k ids ->
  existsb (fun e => oid_type (fst e) =? oid_type k) (state name desc done ids) = true.
Proof.
  intros. apply existsb_exists. unfold state. eexists. split; [apply in_map_iff; exists k; split; [reflexivity|assumption]|]. cbn. apply Z.eqb_refl.
Qed.
Lemma set_info_ok : forall name desc ids g i keys done, NoDup ids -> (forall k, In k g -> In k ids) ->
  (forall j k, nth_error g j = Some k -> nth_error keys (i + j) = Some k) ->
  set_info keys i (map shown_access (names_answer name desc g)) (state name desc done ids) = COk (state name desc (rev g ++ done) ids).
Proof.
  intros name desc ids g. induction g as [|k g IH]; intros i keys done Hnd Hin Hk; [reflexivity|].
  cbn [names_answer map set_info shown_access fst snd shown_result rs_values shown as_read one_or_list o_props pr_data].
  pose proof (Hk 0%nat k eq_refl) as H0. rewrite Nat.add_0_r in H0. rewrite H0.
  rewrite state_get by (apply Hin; left; reflexivity). rewrite state_type by (apply Hin; left; reflexivity).
  replace (om_set k _ (state name desc done ids)) with (state name desc (k :: done) ids).
  2:{ rewrite <- state_set by (try assumption; apply Hin; left; reflexivity). f_equal. destruct (mem k done); reflexivity. }
  fold (names_answer name desc g). cbn [rev]. rewrite <- app_assoc. cbn [app].
  apply IH; [exact Hnd|intros k' Hk'; apply Hin; right; exact Hk'|].
  intros j k' Hj. replace (S i + j)%nat with (i + S j)%nat by lia. apply Hk. exact Hj.
Qed.
Lemma names_request_len : forall inv g, zlen (spec_readmulti_request inv (names_request g)) = 4 + 11 * zlen g.
Proof.
  intros inv g. unfold spec_readmulti_request, names_request. rewrite zlen_app. change (zlen (spec_request inv 14)) with 4. f_equal.
  induction g as [|k g IH]; [reflexivity|]. cbn [map flat_map]. rewrite zlen_app, IH, zlen_cons. cbn [fst snd].
  unfold spec_read_spec. rewrite !zlen_app, ctx_oid_len by lia. cbn [flat_map fst snd]. rewrite !zlen_app, !ctx_unsigned_len by (unfold in_u32; lia).
  change (zlen (spec_open 1)) with 1. change (zlen (spec_close 1)) with 1. change (zlen (spec_index 1 whole)) with 0.
  change (usize 77) with 1. change (usize 28) with 1. change (zlen (@nil Z)) with 0. lia.
Qed.
Lemma info_keys_eq : forall objs, info_keys objs = filter standard (map o_id objs).
Proof.
  intro objs. unfold info_keys, maxStandardBacnetType, standard. induction objs as [|o objs IH]; [reflexivity|]. cbn [map filter].
  destruct (oid_type (o_id o) <=? 128); cbn [map]; rewrite IH; reflexivity.
Qed.
Lemma info_request_eq : forall g, info_request g = mkMPD (map read_object (names_request g)).
Proof. intro g. unfold info_request, names_request. rewrite map_map. reflexivity. Qed.
Lemma names_request_ok : forall g, Forall valid_oid g ->
  Forall (fun x => valid_oid (fst x) /\ Forall (fun p => in_u32 (fst p) /\ in_u32 (snd p)) (snd x)) (names_request g).
Proof.
  intros g Hv. unfold names_request. rewrite Forall_map. eapply Forall_impl; [|exact Hv]. intros k Hk. cbn [fst snd]. split; [exact Hk|].
  repeat constructor; cbn; unfold whole; lia.
Qed.
Lemma info_ok : forall fuel e id me dev ip port hdr name desc ids done objs g, reached dev ip port hdr -> present me = false ->
  dv_maxapdu dev <= 65531 -> zlen hdr + 4 + 11 * zlen g <= dv_maxapdu dev -> NoDup ids -> (forall k, In k g -> In k ids) ->
  Forall valid_oid g ->
  Forall (fun k => readable (VString (name k)) /\ readable (VString (desc k))) g ->
  filter standard (map o_id objs) = g ->
  serves_via hdr fuel e id (spec_readmulti_request id (names_request g)) (spec_readmulti_ack id (names_answer name desc g)) ->
  objectInformation fuel e me dev objs (state name desc done ids)
  = ([names_frame hdr ip port id g], COk (state name desc (rev g ++ done) ids)).
Proof.
  intros fuel e id me dev ip port hdr name desc ids done objs g Hl Hm Hmx Hmn Hnd Hin Hv Hr Hobjs Hs. unfold objectInformation.
  rewrite info_keys_eq, Hobjs, info_request_eq.
  rewrite (via_readmulti fuel e id me dev ip port hdr (names_request g) (names_answer name desc g)); try assumption.
  - cbn [cbind app]. rewrite (set_info_ok name desc ids g 0); [reflexivity|assumption|assumption|].
    intros j k Hj. cbn [Nat.add]. rewrite nth_error_app1; [exact Hj|]. apply nth_error_Some. congruence.
  - apply names_request_ok. exact Hv.
  - unfold names_answer. rewrite Forall_map. rewrite Forall_forall in *. intros k Hk. unfold access_ok. cbn [fst snd]. split; [apply Hv; exact Hk|].
    split; [discriminate|]. destruct (Hr k Hk) as [R1 R2].
    assert (RO : forall p s, in_u32 p -> readable (VString s) -> result_ok (mkResult p whole [SVal (VString s)])).
    { intros p s Hp Hs'. split; [exact Hp|]. split; [unfold in_u32, whole; cbn; lia|]. constructor; [exact Hs'|constructor]. }
    apply Forall_cons; [apply RO; [unfold in_u32; lia|exact R1]|]. apply Forall_cons; [apply RO; [unfold in_u32; lia|exact R2]|]. apply Forall_nil.
  - rewrite names_request_len. lia.
Qed.
Lemma info_too_large : forall fuel e id me dev ip port hdr objs g m, reached dev ip port hdr -> present me = false ->
  0 < dv_maxapdu dev < zlen hdr + 4 + 11 * zlen g -> zlen g <= 5 -> Forall valid_oid g -> filter standard (map o_id objs) = g -> ev_id e = Some id ->
  is_byte id -> objectInformation fuel e me dev objs m = ([], CErr (CWrap CTooLarge)).
Proof.
  intros fuel e id me dev ip port hdr objs g m Hl Hm Hmx Hg Hv Hobjs Hid Hb. unfold objectInformation. rewrite info_keys_eq, Hobjs, info_request_eq.
  unfold ReadMultiProperty. rewrite Hid, (via_header _ _ _ _ _ Hl Hm). replace (dv_maxapdu dev =? 0) with false by lia.
  replace (u8 id) with id by (unfold u8; unfold is_byte in Hb; lia). rewrite enc_readmulti by (first [exact Hb|apply names_request_ok; exact Hv]). cbn [ebuf].
  replace (dv_maxapdu dev <? _) with true; [reflexivity|]. destruct (reached_facts _ _ _ _ Hl) as (_ & _ & _ & _ & _ & HH & _).
  pose proof (names_request_len id g). rewrite zlen_app. unfold u32. rewrite Z.mod_small by lia. lia.
Qed.
Lemma filter_in_sub : forall (l : list object_id) x, In x (filter standard l) -> In x l.
Proof. intros l x H. apply filter_In in H. tauto. Qed.
Lemma filter_forall : forall (P : object_id -> Prop) l, Forall P l -> Forall P (filter standard l).
Proof. intros P l H. rewrite Forall_forall in *. intros x Hx. apply H, filter_in_sub, Hx. Qed.
Lemma all_info_ok : forall fuel envs inv me dev ip port hdr name desc ids n k objs g done gs rest, reached dev ip port hdr -> present me = false ->
  dv_maxapdu dev <= 65531 -> NoDup ids -> (forall k, In k g -> In k ids) -> Forall valid_oid g ->
  Forall (fun k => readable (VString (name k)) /\ readable (VString (desc k))) g ->
  map o_id objs = g -> (length objs <= n)%nat ->
  map (filter standard) (fives n g) = gs ++ rest ->
  Forall (fun x => zlen hdr + 4 + 11 * zlen x <= dv_maxapdu dev) gs ->
  (forall j x, nth_error gs j = Some x -> serves_via hdr fuel (envs (k + j)%nat) (inv (k + j)%nat)
     (spec_readmulti_request (inv (k + j)%nat) (names_request x)) (spec_readmulti_ack (inv (k + j)%nat) (names_answer name desc x))) ->
  match rest with
  | [] => exists done', all_info n fuel k envs me dev objs (state name desc done ids)
          = (frames (names_frame hdr ip port) inv k gs, COk (state name desc done' ids))
          /\ forall x, In x done' <-> (In x g /\ standard x = true) \/ In x done
  | x :: _ => 0 < dv_maxapdu dev < zlen hdr + 4 + 11 * zlen x -> ev_id (envs (k + length gs)%nat) = Some (inv (k + length gs)%nat) -> is_byte (inv (k + length gs)%nat) ->
          all_info n fuel k envs me dev objs (state name desc done ids) = (frames (names_frame hdr ip port) inv k gs, CErr (CWrap (CWrap CTooLarge)))
  end.
Proof.
  intros fuel envs inv me dev ip port hdr name desc ids. induction n as [|n IH]; intros k objs g done gs rest Hl Hm Hmx Hnd Hin Hv Hr Hobjs Hlen HG Hfit Hs.
  { cbn [fives map] in HG. symmetry in HG. apply app_eq_nil in HG. destruct HG as [-> ->]. exists done. split; [reflexivity|].
    destruct objs; [|cbn in Hlen; lia]. subst g. cbn. tauto. }
  destruct objs as [|o objs].
  { subst g. cbn [fives map] in HG. symmetry in HG. apply app_eq_nil in HG. destruct HG as [-> ->]. exists done. split; [reflexivity|]. cbn. tauto. }
  cbn [all_info]. remember (o :: objs) as os eqn:EO.
  assert (EF : fives (S n) g = firstn 5 g :: fives n (skipn 5 g)) by (rewrite <- Hobjs, EO; reflexivity).
  rewrite EF in HG. cbn [map] in HG.
  assert (SPLIT : firstn 5 g ++ skipn 5 g = g) by apply firstn_skipn.
  assert (FI : forall P : object_id -> Prop, Forall P g -> Forall P (firstn 5 g) /\ Forall P (skipn 5 g)).
  { intros P H. rewrite <- SPLIT in H. apply Forall_app in H. exact H. }
  assert (INF : forall x, In x (firstn 5 g) -> In x g) by (intros x H; rewrite <- SPLIT; apply in_or_app; left; exact H).
  assert (INS : forall x, In x (skipn 5 g) -> In x g) by (intros x H; rewrite <- SPLIT; apply in_or_app; right; exact H).
  assert (EO5 : filter standard (map o_id (firstn 5 os)) = filter standard (firstn 5 g)) by (rewrite <- Hobjs, firstn_map; reflexivity).
  destruct gs as [|g0 gs].
  { cbn [app] in HG. rewrite <- HG. intros Hb Hid Hbyte. cbn [length] in Hid, Hbyte. rewrite Nat.add_0_r in Hid, Hbyte.
    rewrite (info_too_large fuel (envs k) (inv k) me dev ip port hdr (firstn 5 os) (filter standard (firstn 5 g))); try assumption; [reflexivity| |].
    - assert (HL : (length (filter standard (firstn 5 g)) <= length (firstn 5 g))%nat).
      { clear. induction (firstn 5 g) as [|x l IHl]; [cbn; lia|]. cbn [filter]. destruct (standard x); cbn [length]; lia. }
      rewrite firstn_length in HL. unfold zlen. lia.
    - apply filter_forall, (FI _ Hv). }
  cbn [app] in HG. injection HG as H0 HG. apply Forall_cons_iff in Hfit. destruct Hfit as [Hf0 Hfit].
  pose proof (Hs 0%nat _ eq_refl) as Hs0. rewrite Nat.add_0_r in Hs0.
  rewrite (info_ok fuel (envs k) (inv k) me dev ip port hdr name desc ids done (firstn 5 os) g0); try assumption.
  - cbn [cbind]. specialize (IH (S k) (skipn 5 os) (skipn 5 g) (rev g0 ++ done) gs rest).
    assert (HX := IH Hl Hm Hmx Hnd (fun x H => Hin x (INS x H)) (proj2 (FI _ Hv)) (proj2 (FI _ Hr))). clear IH.
    assert (E1 : map o_id (skipn 5 os) = skipn 5 g) by (rewrite <- Hobjs; symmetry; apply skipn_map).
    assert (E2 : (length (skipn 5 os) <= n)%nat) by (rewrite EO in *; rewrite skipn_length; cbn [length] in *; lia).
    specialize (HX E1 E2 HG Hfit).
    assert (E3 : forall j x, nth_error gs j = Some x -> serves_via hdr fuel (envs (S k + j)%nat) (inv (S k + j)%nat)
     (spec_readmulti_request (inv (S k + j)%nat) (names_request x)) (spec_readmulti_ack (inv (S k + j)%nat) (names_answer name desc x))).
    { intros j x Hj. replace (S k + j)%nat with (k + S j)%nat by lia. apply Hs. exact Hj. }
    specialize (HX E3). destruct rest as [|r rest].
    + destruct HX as (done' & E & HD). exists done'. rewrite E. split; [reflexivity|]. intro x.
      rewrite HD, in_app_iff, <- in_rev, <- H0, filter_In. rewrite <- SPLIT at 3. rewrite in_app_iff. tauto.
    + cbn [length]. intros Hb Hid Hbyte. replace (k + S (length gs))%nat with (S k + length gs)%nat in * by lia. rewrite (HX Hb Hid Hbyte). reflexivity.
  - intros x H. rewrite <- H0 in H. apply Hin, INF, filter_in_sub, H.
  - rewrite <- H0. apply filter_forall, (FI _ Hv).
  - rewrite <- H0. apply filter_forall, (FI _ Hr).
  - rewrite EO5. exact H0.
Qed.
Lemma objects_all : forall fuel order envs inv me dev ip port hdr ids name desc cs gs rest, reached dev ip port hdr -> present me = false -> valid_oid (dv_id dev) ->
  20 <= dv_maxapdu dev <= 65531 -> (hdr = [1; 4] \/ 40 <= dv_maxapdu dev) -> NoDup ids -> Forall valid_oid ids -> zlen ids < 4294967296 ->
  Forall (fun k => readable (VString (name k)) /\ readable (VString (desc k))) ids ->
  Permutation (order (bare ids)) (bare ids) ->
  chunks (dv_maxapdu dev / readPropRequestSize) (zlen ids) = ROk cs ->
  map (filter standard) (fives (length ids) (map fst (order (bare ids)))) = gs ++ rest ->
  Forall (fun g => zlen hdr + 4 + 11 * zlen g <= dv_maxapdu dev) gs ->
  serves_via hdr fuel (envs 0%nat) (inv 0%nat) (spec_read_request (inv 0%nat) (dv_id dev) 76 0) (spec_read_ack (inv 0%nat) (dv_id dev) 76 0 [SVal (VUint (zlen ids))]) ->
  (forall j c, nth_error cs j = Some c -> let k := (1 + j)%nat in serves_via hdr fuel (envs k) (inv k)
     (spec_readmulti_request (inv k) (list_request (dv_id dev) c)) (spec_readmulti_ack (inv k) (list_answer (dv_id dev) ids c))) ->
  (forall j g, nth_error gs j = Some g -> let k := (S (length cs) + j)%nat in serves_via hdr fuel (envs k) (inv k)
     (spec_readmulti_request (inv k) (names_request g)) (spec_readmulti_ack (inv k) (names_answer name desc g))) ->
  let sent := mkDgram ip port (frame_with hdr (spec_read_request (inv 0%nat) (dv_id dev) 76 0))
       :: frames (list_frame hdr ip port (dv_id dev)) inv 1 cs ++ frames (names_frame hdr ip port) inv (S (length cs)) gs in
  match rest with
  | [] => Objects fuel order envs me dev = (sent, COk (complete name desc ids))
  | g :: _ => let k := (S (length cs) + length gs)%nat in
      dv_maxapdu dev < zlen hdr + 4 + 11 * zlen g -> ev_id (envs k) = Some (inv k) -> is_byte (inv k) ->
      Objects fuel order envs me dev = (sent, CErr (CWrap (CWrap CTooLarge)))
  end.
Proof.
  intros fuel order envs inv me dev ip port hdr ids name desc cs gs rest Hl Hm Ho Hmx H40 Hnd Hv Hz Hr Hperm Hc HG Hfit Hs0 Hs1 Hs2 sent.
  unfold Objects. rewrite (objectList_ok fuel envs inv me dev ip port hdr ids cs) by assumption. cbn [cbind].
  assert (EB : bare ids = state name desc [] ids) by reflexivity.
  set (pids := map fst (order (bare ids))) in *.
  assert (HPI : Permutation pids ids).
  { unfold pids. rewrite Hperm. unfold bare. rewrite map_map. cbn [fst]. rewrite map_id. reflexivity. }
  assert (HO : map o_id (map snd (order (bare ids))) = pids).
  { unfold pids. rewrite map_map. apply map_ext_in. intros [k o] Hk. apply (Permutation_in _ Hperm) in Hk. unfold bare in Hk.
    apply in_map_iff in Hk. destruct Hk as (id & E & _). inversion E. reflexivity. }
  assert (HLo : length (map snd (order (bare ids))) = length ids).
  { rewrite map_length, (Permutation_length Hperm). unfold bare. apply map_length. }
  assert (FP : forall P : object_id -> Prop, Forall P ids -> Forall P pids).
  { intros P H. rewrite Forall_forall in *. intros x Hx. apply H. apply (Permutation_in _ HPI). exact Hx. }
  pose proof (all_info_ok fuel envs inv me dev ip port hdr name desc ids (length (map snd (order (bare ids)))) (S (length cs)) (map snd (order (bare ids))) pids [] gs rest
    Hl Hm ltac:(lia) Hnd (fun x H => Permutation_in _ HPI H) (FP _ Hv) (FP _ Hr) HO ltac:(lia) ltac:(rewrite HLo; exact HG) Hfit Hs2) as HA.
  destruct rest as [|g rest].
  - destruct HA as (done' & E & HD). rewrite <- EB in E. rewrite E. unfold sent. cbn [app]. f_equal. f_equal. unfold state, complete. apply map_ext_in. intros x Hx.
    assert (HM : mem x done' = standard x).
    { pose proof (Permutation_in _ (Permutation_sym HPI) Hx). specialize (HD x). rewrite <- mem_in in HD. cbn in HD. destruct (mem x done'), (standard x); try reflexivity; intuition congruence. }
    rewrite HM. reflexivity.
  - intros Hb Hid Hbyte. rewrite <- EB in HA. rewrite HA by (try assumption; lia). reflexivity.
Qed.
