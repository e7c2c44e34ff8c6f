(** A request datagram determines the request. *)
From Coq Require Import Lia ZifyBool ZifyNat.
From Verif Require Import ModelNet ModelSystem SpecSystem SpecWire SpecCodec SpecLayers SpecServices SpecObs SpecClient SpecNet SpecDevice SpecOrder SpecLinear
  ProofsWire ProofsTag ProofsApp ProofsCodec ProofsServices ProofsCall ProofsExact ProofsDevice.

Lemma oid_prefix : forall t o o' r r', valid_oid o -> valid_oid o' -> spec_ctx_oid t o ++ r = spec_ctx_oid t o' ++ r' -> o = o' /\ r = r'.
Proof.
  intros t o o' r r' H H' E. unfold spec_ctx_oid in E. rewrite <- !app_assoc in E. apply app_inv_head in E.
  unfold spec_oid in E. apply app_len_inv in E; [|rewrite !octets_length; reflexivity]. destruct E as (E & ->). split; [|reflexivity].
  apply (f_equal be_val) in E. destruct o as [t1 i1], o' as [t2 i2]. unfold valid_oid in *. cbn [oid_type oid_inst] in *.
  rewrite !be_val_octets in E by lia. f_equal; lia.
Qed.
Lemma index_prefix : forall c idx idx' r r', in_u32 idx -> in_u32 idx' -> c = [62] \/ c = [] ->
  spec_index 2 idx ++ c ++ r = spec_index 2 idx' ++ c ++ r' -> (c = [] -> r = [] /\ r' = []) -> idx = idx' /\ r = r'.
Proof.
  intros c idx idx' r r' H H' Hc E Hr. unfold spec_index in E.
  assert (NE : forall z q q', in_u32 z -> spec_ctx_unsigned 2 z ++ q <> 62 :: q').
  { intros z q q' Hz Q. unfold spec_ctx_unsigned, spec_tag in Q. pose proof (usize_le4 z Hz). cbn [app] in Q. replace (usize z <? 5) with true in Q by lia. change (2 <? 15) with true in Q. cbv iota in Q. apply (f_equal (hd 0)) in Q. cbn [hd] in Q. lia. }
  assert (NN : forall z q, spec_ctx_unsigned 2 z ++ q <> []).
  { intros z q Q. unfold spec_ctx_unsigned, spec_tag in Q. discriminate. }
  destruct (idx =? whole) eqn:E1, (idx' =? whole) eqn:E2.
  - split; [lia|]. exact (app_inv_head c _ _ E).
  - exfalso. destruct Hc as [->| ->]; [eapply NE; [exact H'|symmetry; exact E]|]. destruct (Hr eq_refl) as (-> & ->). eapply NN. symmetry. exact E.
  - exfalso. destruct Hc as [->| ->]; [eapply NE; [exact H|exact E]|]. destruct (Hr eq_refl) as (-> & ->). eapply NN. exact E.
  - apply ctx_unsigned_prefix in E; [|lia|exact H]. destruct E as (E & K). split; [symmetry; apply K; unfold in_u32 in H'; lia|]. exact (app_inv_head c _ _ E).
Qed.
Lemma written_readable : forall v, writable v -> written_standard v -> readable v.
Proof. intros v H S. destruct v; try contradiction; try exact H. cbn [writable written_standard readable] in *. split; [exact H|lia]. Qed.
Lemma app_prefix : forall v v' r r', readable v -> readable v' -> spec_app v ++ r = spec_app v' ++ r' -> v = v' /\ r = r'.
Proof.
  intros v v' r r' H H' E. destruct (app_conforming v r H) as (d & D1 & D2 & _). destruct (app_conforming v' r' H') as (d' & D1' & D2' & _).
  rewrite E, D1' in D1. injection D1 as EV ED. subst d'. split; [|congruence].
  assert (NE : forall n m q q', in_u32 n -> in_u32 m -> spec_app (VEnum n) ++ q <> spec_app (VUint m) ++ q').
  { intros n m q q' Hn Hm Q. pose proof (usize_le4 n Hn). pose proof (usize_le4 m Hm). pose proof (usize_pos n). pose proof (usize_pos m). cbn [spec_app] in Q. unfold spec_tag in Q. cbn [app] in Q.
    replace (usize n <? 5) with true in Q by lia. replace (usize m <? 5) with true in Q by lia. change (9 <? 15) with true in Q. change (2 <? 15) with true in Q. cbv iota in Q. apply (f_equal (hd 0)) in Q. cbn [hd] in Q. lia. }
  destruct v, v'; cbn [as_read] in EV; try discriminate EV; try contradiction; try (symmetry; exact EV).
  - exfalso. eapply NE; [exact H'|exact H|symmetry; exact E].
  - exfalso. eapply NE; [exact H|exact H'|exact E].
  - congruence.
Qed.
Lemma property_meant : forall o p v, property_octets o p v = spec_app (meant o p v).
Proof. intros o p v. destruct v; try reflexivity. cbn [property_octets meant]. destruct (binary_pv o p); reflexivity. Qed.
Lemma request_inj : forall id id' x x', op_ok x -> op_ok x' -> request_of id x = request_of id' x' -> x = x'.
Proof.
  intros id id' x x' H H' E. destruct x as [o p idx|o p idx v prio], x' as [o' p' idx'|o' p' idx' v' prio'];
    cbn [request_of] in E; unfold spec_read_request, spec_write_request, spec_request, spec_confirmed, flags, spec_reference in E; cbn [app] in E;
    try (apply (f_equal (fun l => nth 3 l 0)) in E; cbn [nth] in E; discriminate E); apply (f_equal (skipn 4)) in E; cbn [skipn] in E.
  - destruct H as (Ho & Hp & Hx), H' as (Ho' & Hp' & Hx'). apply oid_prefix in E; [|assumption..]. destruct E as (<- & E).
    assert (in_u32 p) as HP by (unfold valid_property, in_u32 in *; lia). apply ctx_unsigned_prefix in E; [|lia|exact HP]. destruct E as (E & K). rewrite (K ltac:(unfold valid_property in *; lia)).
    rewrite <- (app_nil_r (spec_index 2 idx)), <- (app_nil_r (spec_index 2 idx')) in E. apply (index_prefix [] idx idx' [] []) in E; auto. destruct E as (-> & _). reflexivity.
  - destruct H as (Ho & Hp & Hx & Hb & Hv & Hs & Hbin & _), H' as (Ho' & Hp' & Hx' & Hb' & Hv' & Hs' & Hbin' & _). rewrite <- !app_assoc in E. apply oid_prefix in E; [|assumption..]. destruct E as (<- & E).
    assert (in_u32 p) as HP by (unfold valid_property, in_u32 in *; lia). apply ctx_unsigned_prefix in E; [|lia|exact HP]. destruct E as (E & K). rewrite (K ltac:(unfold valid_property in *; lia)) in *. clear K.
    change (spec_open 3) with [62] in E. apply index_prefix in E; [|assumption|assumption|auto|discriminate]. destruct E as (-> & E).
    rewrite !property_meant in E. apply app_prefix in E; [|apply written_readable; [apply meant_writable|apply meant_standard]; assumption..]. destruct E as (EV & E).
    apply app_inv_head in E. assert (v = v') as ->.
    { unfold meant in EV. destruct (binary_pv o p) eqn:B; [|destruct v, v'; exact EV].
      destruct (Hbin eq_refl) as [->|(n & ->)], (Hbin' eq_refl) as [->|(n' & ->)]; try discriminate EV; [reflexivity|]. injection EV as ->. reflexivity. }
    f_equal. unfold spec_priority in E. destruct (prio =? 0) eqn:P1, (prio' =? 0) eqn:P2.
    + lia.
    + unfold spec_ctx_unsigned, spec_tag in E. discriminate.
    + unfold spec_ctx_unsigned, spec_tag in E. discriminate.
    + rewrite <- (app_nil_r (spec_ctx_unsigned 4 prio)), <- (app_nil_r (spec_ctx_unsigned 4 prio')) in E. apply ctx_unsigned_prefix in E; [|lia|unfold is_byte, in_u32 in *; lia].
      symmetry. apply E. unfold is_byte in *. lia.
Qed.
Lemma frame_inj : forall net mac net' mac' id id' x x', 0 <= net < 65536 -> 0 <= net' < 65536 -> (net = 0 -> mac = 0) -> (net' = 0 -> mac' = 0) ->
  op_ok x -> op_ok x' -> point_frame net mac (request_of id x) = point_frame net' mac' (request_of id' x') -> net = net' /\ mac = mac' /\ x = x'.
Proof.
  intros net mac net' mac' id id' x x' Hn Hn' Hm Hm' Hx Hx' E. unfold point_frame, local_frame, station_frame in E.
  assert (EN : forall q m a, 0 < q -> spec_npdu (mkNpdu 1 (Some (mkAddr q (zlen [m]) 0 [] [m])) None 0 false 0 true 0 255) ++ a = [1; 36] ++ octets 2 q ++ [1; m; 255] ++ a).
  { intros q m a Hq. unfold spec_npdu, spec_opt_addr, present, spec_addr. cbn [n_version n_dest n_src n_prio n_reply n_netmsg n_hop a_net a_adr]. replace (q =? 0) with false by lia. cbn [negb bit_z]. rewrite <- !app_assoc. reflexivity. }
  destruct (net =? 0) eqn:N1, (net' =? 0) eqn:N2; unfold spec_bvlc in E; rewrite ?EN in E by lia; apply (f_equal (skipn 2)) in E; cbn [skipn] in E.
  - apply app_len_inv in E; [|rewrite !octets_length; reflexivity]. destruct E as (_ & E). apply app_inv_head in E. split; [lia|]. split; [lia|]. eapply request_inj; eassumption.
  - apply app_len_inv in E; [|rewrite !octets_length; reflexivity]. destruct E as (_ & E). discriminate.
  - apply app_len_inv in E; [|rewrite !octets_length; reflexivity]. destruct E as (_ & E). discriminate.
  - apply app_len_inv in E; [|rewrite !octets_length; reflexivity]. destruct E as (_ & E). apply app_inv_head in E.
    apply app_len_inv in E; [|rewrite !octets_length; reflexivity]. destruct E as (EQ & E). pose proof (f_equal (fun l => nth 1 l 0) E) as E1. apply (f_equal (skipn 3)) in E. cbn [skipn nth app] in E, E1.
    apply (f_equal be_val) in EQ. rewrite !be_val_octets in EQ by (cbn; lia). split; [exact EQ|]. split; [exact E1|]. eapply request_inj; eassumption.
Qed.
Lemma datagram_inj : forall t t' id id' x x', spot_ok t -> spot_ok t' -> (sp_net t = 0 -> sp_mac t = 0) -> (sp_net t' = 0 -> sp_mac t' = 0) -> op_ok x -> op_ok x' ->
  request_to t id x = request_to t' id' x' -> t = t' /\ x = x'.
Proof.
  intros [ip port net mac] [ip' port' net' mac'] id id' x x' (_ & _ & Hn & _) (_ & _ & Hn' & _) H H' Hx Hx' E. unfold request_to in E. cbn [sp_ip sp_port sp_net sp_mac] in *.
  injection E as -> -> E. destruct (frame_inj net mac net' mac' id id' x x' Hn Hn' H H' Hx Hx' E) as (-> & -> & ->). auto.
Qed.
