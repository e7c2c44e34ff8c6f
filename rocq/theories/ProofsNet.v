(** Proofs about package network: C60, C63, C65-C67 and the reads, writes and
    discovery built on them. *)
From Coq Require Import Permutation Lia ZifyBool ZifyNat.
From Verif Require Import ModelNet SpecNet SpecWire SpecLayers SpecServices SpecObs SpecClient ProofsWire ProofsBits ProofsServices ProofsServiceProps ProofsRecv ProofsCall ProofsRoute ProofsTypes.
Open Scope Z_scope.

(** * Reads and writes of an opened device *)
Lemma arrayall_u32 : in_u32 ArrayAll. Proof. unfold in_u32, ArrayAll. lia. Qed.
Lemma read_request_eq : forall e me d o p idx,
  Read e me d (Some (mkNO (oid_inst o) (oid_type o) p idx)) = ReadProperty e me (as_device (nd_dev d)) (request o p idx).
Proof. intros e me d [t i] p idx. reflexivity. Qed.
Lemma net_read : forall e me d ip port net mac o p idx vs, opened d ip port net mac -> own me ->
  valid_oid o -> valid_property p -> in_u32 idx -> device_answers e ip port net mac o p idx vs ->
  exists id, ev_id e = Some id /\ is_byte id
  /\ Read e me d (Some (mkNO (oid_inst o) (oid_type o) p idx))
     = ([mkDgram ip port (point_frame net mac (spec_read_request id o p idx))], COk (answer o p idx (one_or_list (map shown vs)))).
Proof.
  intros e me d ip port net mac o p idx vs (Hi & Hp & Hn & Hm & Ha) Hme Ho Hpr Hx (id & Hid & Hb & Hv & Hs & Hr). exists id. split; [exact Hid|]. split; [exact Hb|].
  rewrite read_request_eq.
  destruct (read_at e me (as_device (nd_dev d)) ip port net mac o p idx Ha Hi Hp Hn Hm (own_absent me Hme) Ho Hpr Hx) as [_ R].
  destruct (R id Hid Hb) as (E1 & _ & _ & _ & E2). specialize (E2 Hs vs Hv Hr). destruct (ReadProperty _ _ _ _). cbn [fst snd] in *. subst. reflexivity.
Qed.
Lemma net_read_fails : forall e me d ip port net mac o p idx, opened d ip port net mac -> own me ->
  valid_oid o -> valid_property p -> in_u32 idx -> device_fails e -> (forall id, ev_id e = Some id -> is_byte id) ->
  exists tr x, Read e me d (Some (mkNO (oid_inst o) (oid_type o) p idx)) = (tr, CErr x) /\ (length tr <= 1)%nat.
Proof.
  intros e me d ip port net mac o p idx (Hi & Hp & Hn & Hm & Ha) Hme Ho Hpr Hx HF Hb. rewrite read_request_eq.
  destruct (read_at e me (as_device (nd_dev d)) ip port net mac o p idx Ha Hi Hp Hn Hm (own_absent me Hme) Ho Hpr Hx) as [N R].
  destruct (ev_id e) as [id|] eqn:E.
  - specialize (R id eq_refl (Hb id eq_refl)). cbv zeta in R. set (g := mkDgram ip port (point_frame net mac (spec_read_request id o p idx))) in *.
    destruct R as (E1 & R1 & R2 & R3 & _). destruct (ReadProperty e me (as_device (nd_dev d)) (request o p idx)) as [tr r]. cbn [fst snd] in *. subst tr.
    exists [g]. destruct (at_sent (ev_att e 0 g)) eqn:Es; [|exists CSend; rewrite R1 by reflexivity; split; [reflexivity|cbn; lia]].
    destruct (HF 0%nat g) as [C|[C|[C|(c & x & C)]]]; try congruence.
    + rewrite R2 by (reflexivity || assumption). exists CTimeout. split; [reflexivity|cbn; lia].
    + rewrite (R3 eq_refl c x C). exists (CPdu c x). split; [reflexivity|cbn; lia].
  - rewrite (N eq_refl). exists [], CNoId. split; [reflexivity|cbn; lia].
Qed.
(** every frame of a read goes to the device *)
Lemma net_read_frames : forall e me d ip port net mac o p idx g, opened d ip port net mac -> own me ->
  valid_oid o -> valid_property p -> in_u32 idx -> (forall id, ev_id e = Some id -> is_byte id) ->
  In g (fst (Read e me d (Some (mkNO (oid_inst o) (oid_type o) p idx)))) ->
  exists id, ev_id e = Some id /\ g = mkDgram ip port (point_frame net mac (spec_read_request id o p idx)).
Proof.
  intros e me d ip port net mac o p idx g (Hi & Hp & Hn & Hm & Ha) Hme Ho Hpr Hx Hb H. rewrite read_request_eq in H.
  destruct (read_at e me (as_device (nd_dev d)) ip port net mac o p idx Ha Hi Hp Hn Hm (own_absent me Hme) Ho Hpr Hx) as [N R].
  destruct (ev_id e) as [id|] eqn:E.
  - destruct (R id eq_refl (Hb id eq_refl)) as (E1 & _). rewrite E1 in H. destruct H as [<-|[]]. exists id. auto.
  - rewrite (N eq_refl) in H. contradiction.
Qed.

(** * Point reads *)
Lemma point_float : forall e me d ip port net mac t i prio vs, opened d ip port net mac -> own me -> valid_oid (mkOid t i) ->
  device_answers e ip port net mac (mkOid t i) 85 whole vs ->
  exists g, PointReadFloat32 e me d (mkPoint i t prio) = ([g], COk (match vs with [SVal (VReal x)] => x | _ => 0 end)).
Proof.
  intros e me d ip port net mac t i prio vs Hop Hme Ho HA.
  destruct (net_read e me d ip port net mac (mkOid t i) 85 whole vs Hop Hme Ho ltac:(unfold valid_property; lia) arrayall_u32 HA) as (id & _ & _ & E).
  unfold PointReadFloat32. cbn [oid_inst oid_type pt_inst pt_type] in *. change ArrayAll with whole. rewrite E. cbn [nbind nret]. eexists. rewrite app_nil_r. do 2 f_equal.
  unfold ToFloat32, first_value, answer. cbn [pd_object o_props pr_data].
  destruct vs as [|s [|s2 vs]]; [reflexivity| |destruct s; [destruct v|]; reflexivity].
  cbn [map one_or_list]. destruct s as [v|l]; [|reflexivity]. destruct v; reflexivity.
Qed.
Lemma point_unsigned : forall e me d ip port net mac t i prio vs, opened d ip port net mac -> own me -> valid_oid (mkOid t i) ->
  device_answers e ip port net mac (mkOid t i) 85 whole vs ->
  exists g, PointReadBool e me d (mkPoint i t prio) = ([g], COk (match vs with [SVal (VUint n)] | [SVal (VEnum n)] => n | _ => 0 end))
  /\ PointReadMultiState e me d (mkPoint i t prio) = PointReadBool e me d (mkPoint i t prio).
Proof.
  intros e me d ip port net mac t i prio vs Hop Hme Ho HA.
  destruct (net_read e me d ip port net mac (mkOid t i) 85 whole vs Hop Hme Ho ltac:(unfold valid_property; lia) arrayall_u32 HA) as (id & _ & _ & E).
  unfold PointReadMultiState, PointReadBool. cbn [oid_inst oid_type pt_inst pt_type] in *. change ArrayAll with whole. rewrite E. cbn [nbind nret]. eexists. split; [|reflexivity]. rewrite app_nil_r. do 2 f_equal.
  unfold ToUint32, first_value, answer. cbn [pd_object o_props pr_data].
  destruct vs as [|s [|s2 vs]]; [reflexivity| |destruct s; [destruct v|]; reflexivity].
  cbn [map one_or_list]. destruct s as [v|l]; [|reflexivity]. destruct v; reflexivity.
Qed.
Lemma to_str : forall o p idx vs, snd (ToStr (answer o p idx (one_or_list (map shown vs)))) = text_of (Some vs).
Proof.
  intros o p idx vs. unfold ToStr, first_value, answer. cbn [pd_object o_props pr_data].
  destruct vs as [|s [|s2 vs]]; [reflexivity| |destruct s; [destruct v|]; reflexivity].
  cbn [map one_or_list]. destruct s as [v|l]; [|reflexivity]. destruct v; reflexivity.
Qed.
Lemma to_u32 : forall o p idx vs, snd (ToUint32 (answer o p idx (one_or_list (map shown vs)))) = number_of (Some vs).
Proof.
  intros o p idx vs. unfold ToUint32, first_value, answer. cbn [pd_object o_props pr_data].
  destruct vs as [|s [|s2 vs]]; [reflexivity| |destruct s; [destruct v|]; reflexivity].
  cbn [map one_or_list]. destruct s as [v|l]; [|reflexivity]. destruct v; reflexivity.
Qed.
Lemma read_names : forall e me d ip port net mac t i prio vs, opened d ip port net mac -> own me -> valid_oid (mkOid t i) ->
  device_answers e ip port net mac (mkOid t i) 77 whole vs ->
  exists g, ReadPointName e me d (mkPoint i t prio) = ([g], COk (text_of (Some vs))) /\ (t = 8 -> ReadDeviceName e me d i = ([g], COk (text_of (Some vs)))).
Proof.
  intros e me d ip port net mac t i prio vs Hop Hme Ho HA.
  destruct (net_read e me d ip port net mac (mkOid t i) 77 whole vs Hop Hme Ho ltac:(unfold valid_property; lia) arrayall_u32 HA) as (id & _ & _ & E).
  unfold ReadPointName, ReadDeviceName. cbn [oid_inst oid_type pt_inst pt_type] in *. change ArrayAll with whole. eexists. split.
  - rewrite E. cbn [nbind nret]. rewrite app_nil_r. do 2 f_equal. apply to_str.
  - intros ->. rewrite E. cbn [nbind nret]. rewrite app_nil_r. do 2 f_equal. apply to_str.
Qed.
Lemma read_string : forall e me d ip port net mac o p idx vs, opened d ip port net mac -> own me -> valid_oid o -> valid_property p -> in_u32 idx ->
  device_answers e ip port net mac o p idx vs ->
  exists g, ReadString e me d (Some (mkNO (oid_inst o) (oid_type o) p idx)) = ([g], COk (text_of (Some vs))).
Proof.
  intros e me d ip port net mac o p idx vs Hop Hme Ho Hp Hx HA.
  destruct (net_read e me d ip port net mac o p idx vs Hop Hme Ho Hp Hx HA) as (id & _ & _ & E).
  unfold ReadString. rewrite E. cbn [nbind nret]. eexists. rewrite app_nil_r, to_str. reflexivity.
Qed.
Lemma point_reads_fail : forall e me d ip port net mac t i prio, opened d ip port net mac -> own me -> valid_oid (mkOid t i) ->
  device_fails e -> (forall id, ev_id e = Some id -> is_byte id) ->
  exists tr x, PointReadFloat32 e me d (mkPoint i t prio) = (tr, CErr x) /\ PointReadBool e me d (mkPoint i t prio) = (tr, CErr x)
  /\ PointReadMultiState e me d (mkPoint i t prio) = (tr, CErr x).
Proof.
  intros e me d ip port net mac t i prio Hop Hme Ho HF Hb.
  destruct (net_read_fails e me d ip port net mac (mkOid t i) 85 whole Hop Hme Ho ltac:(unfold valid_property; lia) arrayall_u32 HF Hb) as (tr & x & E & _).
  exists tr, x. unfold PointReadFloat32, PointReadMultiState, PointReadBool. cbn [oid_inst oid_type pt_inst pt_type] in *. change ArrayAll with whole. rewrite E. auto.
Qed.
(** the priority array, from the device's answer to the record *)
Lemma point_priority : forall e me d ip port net mac t i prio vs, opened d ip port net mac -> own me -> valid_oid (mkOid t i) ->
  device_answers e ip port net mac (mkOid t i) 87 whole vs -> length vs <> 1%nat ->
  exists g, PointReadPriority e me d (mkPoint i t prio)
  = match BuildFloat32 (answer (mkOid t i) 87 whole (one_or_list (map shown vs))) t with ROk r => ([g], COk r) | RPanic => ([g], CPanic) end.
Proof.
  intros e me d ip port net mac t i prio vs Hop Hme Ho HA Hl.
  destruct (net_read e me d ip port net mac (mkOid t i) 87 whole vs Hop Hme Ho ltac:(unfold valid_property; lia) arrayall_u32 HA) as (id & _ & _ & E).
  unfold PointReadPriority. cbn [oid_inst oid_type pt_inst pt_type] in *. change ArrayAll with whole. rewrite E. cbn [nbind]. eexists.
  destruct (BuildFloat32 _ _); reflexivity.
Qed.

(** * Writes *)
Lemma tag_len : forall n len, 0 <= n < 15 -> zlen (spec_tag 0 n len) <= 6.
Proof.
  intros n len H. unfold spec_tag. replace (n <? 15) with true by lia. rewrite !zlen_app. change (zlen (@nil Z)) with 0.
  assert (zlen (if len <? 5 then [] else if len <? 254 then [len] else if len <? 65536 then 254 :: octets 2 len else 255 :: octets 4 len) <= 5).
  { destruct (len <? 5); [unfold zlen; cbn; lia|]. destruct (len <? 254); [unfold zlen; cbn; lia|].
    destruct (len <? 65536); rewrite zlen_cons, zlen_octets; lia. }
  match goal with |- zlen [?x] + _ <= _ => change (zlen [x]) with 1 end. lia.
Qed.
Lemma lib_value_len : forall bin v, writable v -> fits v -> zlen (lib_value bin v) <= 65000.
Proof.
  intros bin v Hw Hf. destruct v; try contradiction; cbn [lib_value app_written spec_app writable fits] in *.
  - pose proof (tag_len 0 0 ltac:(lia)). lia.
  - pose proof (usize_le4 n Hw). destruct bin; cbn [spec_app]; rewrite zlen_app; unfold spec_unsigned; rewrite zlen_octets.
    + pose proof (tag_len 9 (usize n) ltac:(lia)). lia.
    + pose proof (tag_len 2 (usize n) ltac:(lia)). lia.
  - rewrite zlen_app, zlen_octets. pose proof (tag_len 4 4 ltac:(lia)). lia.
  - rewrite zlen_app, zlen_octets. pose proof (tag_len 5 4 ltac:(lia)). lia.
  - rewrite zlen_app, zlen_cons. pose proof (tag_len 7 (zlen l + 1) ltac:(lia)). lia.
Qed.
Lemma write_request_eq : forall e me d o p v prio, nw_null (mkNW (oid_inst o) (oid_type o) p v false prio) = false ->
  match v with VUint _ | VReal _ | VDouble _ | VString _ => True | _ => False end ->
  Write e me d (mkNW (oid_inst o) (oid_type o) p v false prio) = WriteProperty e me (as_device (nd_dev d)) (write_of o p whole v prio).
Proof. intros e me d [t i] p v prio _ Hv. destruct v; try contradiction; reflexivity. Qed.
Lemma write_null_eq : forall e me d o p v prio,
  Write e me d (mkNW (oid_inst o) (oid_type o) p v true prio) = WriteProperty e me (as_device (nd_dev d)) (write_of o p whole VNull prio).
Proof. intros e me d [t i] p v prio. reflexivity. Qed.
Lemma net_write : forall e me d ip port net mac o p v prio g, opened d ip port net mac -> own me ->
  valid_oid o -> valid_property p -> is_byte prio -> writable v -> fits v -> written_standard v ->
  (binary_pv o p = true -> v = VNull \/ exists n, v = VUint n) ->
  device_acks e ip port net mac o p v prio g ->
  WriteProperty e me (as_device (nd_dev d)) (write_of o p whole v prio) = ([g], COk tt).
Proof.
  intros e me d ip port net mac o p v prio g (Hi & Hp & Hn & Hm & Ha) Hme Ho Hpr Hb Hw Hf Hst Hbin (id & Hid & Hidb & Hg & Hs & Hr).
  destruct (write_at e me (as_device (nd_dev d)) ip port net mac o p whole v prio Ha Hi Hp Hn Hm (own_absent me Hme) Ho Hpr arrayall_u32 Hb Hw Hbin (lib_value_len _ v Hw Hf)) as [_ R].
  destruct (R id Hid Hidb) as (_ & R2 & _).
  assert (EQ : lib_write id o p whole v prio = spec_write_request id o p whole v prio).
  { unfold lib_write, spec_write_request. rewrite (proj2 (lib_value_standard o p v Hw Hbin) Hst). reflexivity. }
  rewrite EQ in R2. change ArrayAll with whole in Hg. subst g. apply R2; assumption.
Qed.
(** every frame of a write is the standard's request to the device *)
Lemma net_write_frames : forall e me d ip port net mac o p v prio id, opened d ip port net mac -> own me ->
  valid_oid o -> valid_property p -> is_byte prio -> writable v -> fits v -> written_standard v ->
  (binary_pv o p = true -> v = VNull \/ exists n, v = VUint n) -> ev_id e = Some id -> is_byte id ->
  let g := mkDgram ip port (point_frame net mac (spec_write_request id o p whole v prio)) in
  let tr := fst (WriteProperty e me (as_device (nd_dev d)) (write_of o p whole v prio)) in tr = [g] \/ tr = [g; g].
Proof.
  intros e me d ip port net mac o p v prio id (Hi & Hp & Hn & Hm & Ha) Hme Ho Hpr Hb Hw Hf Hst Hbin Hid Hidb g tr.
  destruct (write_at e me (as_device (nd_dev d)) ip port net mac o p whole v prio Ha Hi Hp Hn Hm (own_absent me Hme) Ho Hpr arrayall_u32 Hb Hw Hbin (lib_value_len _ v Hw Hf)) as [_ R].
  destruct (R id Hid Hidb) as (R1 & _). unfold g.
  replace (spec_write_request id o p whole v prio) with (lib_write id o p whole v prio); [exact R1|].
  unfold lib_write, spec_write_request. rewrite (proj2 (lib_value_standard o p v Hw Hbin) Hst). reflexivity.
Qed.
Lemma write_refused : forall e me d w, nw_null w = false -> match nw_value w with VUint _ | VReal _ | VDouble _ | VString _ => False | _ => True end ->
  Write e me d w = ([], CErr CWrongType).
Proof. intros e me d w Hn Hv. unfold Write. rewrite Hn. destruct (nw_value w); try contradiction; reflexivity. Qed.
Lemma present_value_prop : valid_property 85. Proof. unfold valid_property. lia. Qed.
Lemma analogue_binary : forall e me d ip port net mac t i prio x id, opened d ip port net mac -> own me -> valid_oid (mkOid t i) -> t = 4 \/ t = 5 ->
  ev_id e = Some id -> is_byte id -> PointWriteAnalogue e me d (mkPoint i t prio) x = ([], CPanic).
Proof.
  intros e me d ip port net mac t i prio x id (Hi & Hp & Hn & Hm & Ha) Hme Ho Ht Hid Hb. unfold PointWriteAnalogue, Write. cbn [nw_null nw_value nw_type nw_inst nw_prop nw_prio pt_inst pt_type pt_prio].
  unfold WriteProperty. rewrite Hid. destruct (point_header ip port net mac me Hn Hm (own_absent me Hme)) as (hdr & EH & _). cbn [as_device dv_addr]. rewrite Ha. fold (point_addr ip port net mac). rewrite EH.
  unfold enc_WriteProperty. replace (u8 id) with id by (unfold u8; unfold is_byte in Hb; lia).
  rewrite enc_request by (try assumption; unfold is_byte, svcWriteProperty; lia).
  change (mkPD (mkObj [] [] (mkOid t i) [mkProp 85 ArrayAll (VReal x) prio])) with (write_of (mkOid t i) 85 ArrayAll (VReal x) prio).
  rewrite point_binary. unfold write_of. rewrite header_valid by (try assumption; try apply arrayall_u32; apply present_value_prop). cbn [rbind pd_object o_props pr_data pr_prio pr_type pr_index].
  replace (binary_pv (mkOid t i) 85) with true by (unfold binary_pv; cbn [oid_type]; destruct Ht as [->| ->]; reflexivity). reflexivity.
Qed.

(** * Details and discovery *)
Lemma fails_reads : forall e me d ip port net mac o p idx r, opened d ip port net mac -> own me ->
  valid_oid o -> valid_property p -> in_u32 idx -> device_reply e ip port net mac o p idx r ->
  exists tr, ignoring (Read e me d (Some (mkNO (oid_inst o) (oid_type o) p idx)))
     = (tr, COk (match r with Some vs => answer o p idx (one_or_list (map shown vs)) | None => zeroPD end))
  /\ Forall (fun g => read_frame g ip port net mac o p idx) tr.
Proof.
  intros e me d ip port net mac o p idx r Hop Hme Ho Hp Hx HR.
  assert (HF : (forall id, ev_id e = Some id -> is_byte id) -> Forall (fun g => read_frame g ip port net mac o p idx) (fst (Read e me d (Some (mkNO (oid_inst o) (oid_type o) p idx))))).
  { intro Hb. apply Forall_forall. intros g Hg. destruct (net_read_frames e me d ip port net mac o p idx g Hop Hme Ho Hp Hx Hb Hg) as (id & Hid & ->). exists id. split; [apply Hb, Hid|reflexivity]. }
  destruct r as [vs|]; cbn [device_reply] in HR.
  - destruct (net_read e me d ip port net mac o p idx vs Hop Hme Ho Hp Hx HR) as (id & Hid & Hb & E). rewrite E in *. eexists. split; [reflexivity|].
    apply HF. intros id' Hid'. congruence.
  - destruct HR as [HR Hb]. destruct (net_read_fails e me d ip port net mac o p idx Hop Hme Ho Hp Hx HR Hb) as (tr & x & E & _). rewrite E in *. exists tr. split; [reflexivity|]. exact (HF Hb).
Qed.
Definition read_back (o : object_id) (p idx : Z) (r : option (list sent)) : property_data :=
  match r with Some vs => answer o p idx (one_or_list (map shown vs)) | None => zeroPD end.
Lemma back_text : forall o p idx r, snd (ToStr (read_back o p idx r)) = text_of r.
Proof. intros o p idx [vs|]; [apply to_str|reflexivity]. Qed.
Lemma back_number : forall o p idx r, snd (ToUint32 (read_back o p idx r)) = number_of r.
Proof. intros o p idx [vs|]; [apply to_u32|reflexivity]. Qed.
Definition detail_frame (ip : list Z) (port net mac id : Z) (g : datagram) : Prop :=
  exists p, In p [77; 62; 121; 107] /\ read_frame g ip port net mac (mkOid 8 id) p whole.
Lemma device_details : forall k envs me d ip port net mac id r0 r1 r2 r3, opened d ip port net mac -> own me -> 0 <= id <= 4194303 ->
  device_reply (envs k) ip port net mac (mkOid 8 id) 77 whole r0 -> device_reply (envs (S k)) ip port net mac (mkOid 8 id) 62 whole r1 ->
  device_reply (envs (S (S k))) ip port net mac (mkOid 8 id) 121 whole r2 -> device_reply (envs (S (S (S k)))) ip port net mac (mkOid 8 id) 107 whole r3 ->
  exists tr, GetDeviceDetails k envs me d id = (tr, COk (mkDetails (text_of r0) (number_of r1) (text_of r2) (number_of r3) None))
  /\ Forall (detail_frame ip port net mac id) tr.
Proof.
  intros k envs me d ip port net mac id r0 r1 r2 r3 Hop Hme Hid H0 H1 H2 H3.
  assert (Ho : valid_oid (mkOid 8 id)) by (unfold valid_oid; cbn; lia).
  assert (V : forall p, In p [77; 62; 121; 107] -> valid_property p) by (unfold valid_property; cbn; intros; lia).
  destruct (fails_reads _ me d ip port net mac _ 77 whole r0 Hop Hme Ho (V 77 ltac:(cbn; tauto)) arrayall_u32 H0) as (t0 & E0 & F0).
  destruct (fails_reads _ me d ip port net mac _ 62 whole r1 Hop Hme Ho (V 62 ltac:(cbn; tauto)) arrayall_u32 H1) as (t1 & E1 & F1).
  destruct (fails_reads _ me d ip port net mac _ 121 whole r2 Hop Hme Ho (V 121 ltac:(cbn; tauto)) arrayall_u32 H2) as (t2 & E2 & F2).
  destruct (fails_reads _ me d ip port net mac _ 107 whole r3 Hop Hme Ho (V 107 ltac:(cbn; tauto)) arrayall_u32 H3) as (t3 & E3 & F3).
  cbn [oid_inst oid_type] in *. unfold GetDeviceDetails, detail_props. change ArrayAll with whole. cbn [details_loop]. rewrite E0. cbn [nbind]. rewrite E1. cbn [nbind]. rewrite E2. cbn [nbind]. rewrite E3. cbn [nbind nret].
  eexists. split.
  - f_equal. f_equal.
    change (match r0 with Some vs => answer (mkOid 8 id) 77 whole (one_or_list (map shown vs)) | None => zeroPD end) with (read_back (mkOid 8 id) 77 whole r0).
    change (match r1 with Some vs => answer (mkOid 8 id) 62 whole (one_or_list (map shown vs)) | None => zeroPD end) with (read_back (mkOid 8 id) 62 whole r1).
    change (match r2 with Some vs => answer (mkOid 8 id) 121 whole (one_or_list (map shown vs)) | None => zeroPD end) with (read_back (mkOid 8 id) 121 whole r2).
    change (match r3 with Some vs => answer (mkOid 8 id) 107 whole (one_or_list (map shown vs)) | None => zeroPD end) with (read_back (mkOid 8 id) 107 whole r3).
    unfold set_detail. cbn [Z.eqb Pos.eqb dt_name dt_maxapdu dt_vendor dt_seg dt_services details0]. rewrite !back_text, !back_number. reflexivity.
  - assert (W : forall p t, In p [77; 62; 121; 107] -> Forall (fun g => read_frame g ip port net mac (mkOid 8 id) p whole) t -> Forall (detail_frame ip port net mac id) t).
    { intros p t Hp. apply Forall_impl. intros g Hg. exists p. auto. }
    rewrite !Forall_app. split; [apply (W 77); [cbn; tauto|exact F0]|]. split; [apply (W 62); [cbn; tauto|exact F1]|].
    split; [apply (W 121); [cbn; tauto|exact F2]|]. split; [apply (W 107); [cbn; tauto|exact F3]|]. constructor.
Qed.
Lemma discover_spec : forall envs me ip port net mac rep fs k ps d, opened d ip port net mac -> own me -> Forall valid_found fs ->
  (forall j f, nth_error fs j = Some f -> detail_replies envs (k + 4 * j) ip port net mac (oid_inst (f_id f)) rep) ->
  exists tr d', discover_loop k envs me ps d fs = (tr, COk (ps ++ repeat Receiver (length fs), d'))
  /\ nd_dev d' = nd_dev d /\ nd_port d' = nd_port d
  /\ Forall (fun g => exists id, detail_frame ip port net mac id g) tr
  /\ (fs = [] -> d' = d)
  /\ (forall fs0 f, fs = fs0 ++ [f] -> entry_of f d' /\ nd_name d' = text_of (rep (k + 4 * length fs0)%nat) /\ nd_vendor d' = text_of (rep (k + 4 * length fs0 + 2)%nat)).
Proof.
  intros envs me ip port net mac rep. induction fs as [|f fs IH]; intros k ps d Hop Hme Hv HR.
  - exists [], d. cbn. rewrite app_nil_r. repeat split; try reflexivity. 1: constructor. all: destruct fs0; discriminate.
  - inversion_clear Hv as [|? ? Hf Hfs]. destruct (HR 0%nat f eq_refl) as (R0 & R1 & R2 & R3). replace (k + 4 * 0)%nat with k in * by lia.
    assert (Hop1 : opened (discovered d f) ip port net mac) by exact Hop.
    destruct (device_details k envs me (discovered d f) ip port net mac (oid_inst (f_id f)) _ _ _ _ Hop1 Hme Hf R0 R1 R2 R3) as (t0 & E0 & F0).
    set (d2 := with_details (discovered d f) (mkDetails (text_of (rep k)) (number_of (rep (S k))) (text_of (rep (S (S k)))) (number_of (rep (S (S (S k))))) None)).
    assert (Hop2 : opened d2 ip port net mac) by exact Hop.
    destruct (IH (k + 4)%nat (ps ++ [Receiver]) d2 Hop2 Hme Hfs) as (tr & d' & E & D1 & D2 & F & L0 & L).
    { intros j f' Hj. replace (k + 4 + 4 * j)%nat with (k + 4 * S j)%nat by lia. apply HR. exact Hj. }
    cbn [discover_loop]. rewrite E0. cbn [nbind]. fold d2. rewrite E. exists (t0 ++ tr), d'.
    split; [cbn [length repeat]; rewrite <- app_assoc; reflexivity|]. split; [rewrite D1; reflexivity|]. split; [rewrite D2; reflexivity|]. split.
    { apply Forall_app. split; [|exact F]. revert F0. apply Forall_impl. intros g Hg. eexists. exact Hg. }
    split; [discriminate|]. intros fs0 f' EF. destruct fs0 as [|f0 fs0].
    + cbn in EF. injection EF as <- ->. rewrite (L0 eq_refl). cbn [length]. replace (k + 4 * 0)%nat with k by lia. replace (k + 2)%nat with (S (S k)) by lia.
      split; [|split; reflexivity]. unfold entry_of, d2, with_details, discovered. cbn [nd_id nd_net nd_maxapdu nd_seg nd_ip nd_mac].
      repeat split; [|intros a r ->; reflexivity]. intros ip' port' Hip' Hport' EM. destruct (f_addr f) as [an al am amac aadr]. cbn [a_mac] in EM. subst amac.
      rewrite (udp_of_octets _ _ _ _ _ _ Hip' Hport'). apply dotted_spec. exact Hip'.
    + injection EF as <- ->. destruct (L fs0 f' eq_refl) as (L1 & L2 & L3). cbn [length].
      replace (k + 4 * S (length fs0))%nat with (k + 4 + 4 * length fs0)%nat by lia. auto.
Qed.
Lemma deref_all : forall n d, deref (repeat Receiver n, d) = repeat d n.
Proof. intros n d. unfold deref. cbn [fst snd]. induction n as [|n IH]; cbn; [reflexivity|]. f_equal. exact IH. Qed.
Lemma device_discover : forall envs me d ip port net mac fs rep, opened d ip port net mac -> own me -> Forall valid_found fs ->
  (forall j f, nth_error fs j = Some f -> detail_replies envs (4 * j) ip port net mac (oid_inst (f_id f)) rep) ->
  exists tr r x, DeviceDiscover envs me d (inr fs) = (tr, COk r) /\ deref r = repeat x (length fs)
  /\ Forall (fun g => exists id p, read_frame g ip port net mac (mkOid 8 id) p whole) tr
  /\ nd_port x = nd_port d
  /\ (forall fs0 f, fs = fs0 ++ [f] -> entry_of f x /\ nd_name x = text_of (rep (4 * length fs0)%nat) /\ nd_vendor x = text_of (rep (4 * length fs0 + 2)%nat)).
Proof.
  intros envs me d ip port net mac fs rep Hop Hme Hv HR.
  destruct (discover_spec envs me ip port net mac rep fs 0 [] d Hop Hme Hv HR) as (tr & d' & E & _ & D2 & F & _ & L).
  exists tr, (repeat Receiver (length fs), d'), d'. unfold DeviceDiscover. split; [exact E|]. split; [apply deref_all|]. split.
  - revert F. apply Forall_impl. intros g (id & p & _ & Hg). eauto.
  - split; [exact D2|]. intros fs0 f Hf. destruct (L fs0 f Hf) as (L1 & L2 & L3). auto.
Qed.

(** discovery through the network: details are read from the devices themselves *)
Lemma bread : forall e me b ip port net mac o p idx r, bd_addr b = point_addr ip port net mac -> is_ip ip -> is_port port -> 0 <= net < 65536 -> is_byte mac -> own me ->
  valid_oid o -> valid_property p -> in_u32 idx -> device_reply e ip port net mac o p idx r ->
  exists tr, ignoring (ReadProperty e me (as_device b) (request o p idx)) = (tr, COk (read_back o p idx r))
  /\ Forall (fun g => read_frame g ip port net mac o p idx) tr.
Proof.
  intros e me b ip port net mac o p idx r Ha Hi Hp Hn Hm Hme Ho Hpr Hx HR.
  pose (d := mkND [] 0 0 0 0 0 0 [] [] [] b). assert (Hop : opened d ip port net mac) by (repeat split; assumption || apply Hi || apply Hp || apply Hn || apply Hm).
  destruct (fails_reads e me d ip port net mac o p idx r Hop Hme Ho Hpr Hx HR) as (tr & E & F). rewrite read_request_eq in E. exists tr. split; [exact E|exact F].
Qed.
Lemma net_discover_spec : forall envs me rep fs addrs k, own me -> Forall2 (fun f a => good_found f (fst a) (snd a)) fs addrs ->
  (forall j f a, nth_error fs j = Some f -> nth_error addrs j = Some a ->
     detail_replies envs (k + 4 * j) (fst a) (effective_port (snd a)) (f_netnum f) (f_macmstp f) (f_deviceid f) rep) ->
  exists tr bs, net_discover_loop k envs me fs = (tr, COk bs) /\ length bs = length fs
  /\ (forall j f a b, nth_error fs j = Some f -> nth_error addrs j = Some a -> nth_error bs j = Some b ->
      b = mkBD (f_id f) (f_deviceid f) (spec_dotted (fst a)) (snd a) (f_netnum f) (f_macmstp f)
            (number_of (rep (k + 4 * j + 1)%nat)) (number_of (rep (k + 4 * j + 3)%nat)) (f_vendor f) (f_addr f)
            (text_of (rep (k + 4 * j)%nat)) (text_of (rep (k + 4 * j + 2)%nat))).
Proof.
  intros envs me rep fs addrs k Hme HG. revert k. induction HG as [|f [ip port] fs addrs (Hi & Hp & Hip & Hn & Hm & Hid) HG IH]; intros k HR.
  - exists [], []. repeat split; try reflexivity. intros [|j] f a b H; discriminate H.
  - cbn [fst snd] in *. destruct (HR 0%nat f (ip, port) eq_refl eq_refl) as (R0 & R1 & R2 & R3). cbn [fst snd] in R0, R1, R2, R3. replace (k + 4 * 0)%nat with k in * by lia.
    cbn [net_discover_loop]. set (b := bdevice_of_found f). set (build := NewBDevice _).
    assert (EB : bd_addr build = point_addr ip (effective_port port) (f_netnum f) (f_macmstp f)).
    { unfold build. rewrite (new_address _ ip); cbn [bd_ip bd_port bd_net bd_mac]; unfold b, bdevice_of_found; cbn [bd_ip bd_port bd_net bd_mac]; rewrite ?Hip; try assumption; [reflexivity|apply dotted_spec, Hi]. }
    assert (ED : bd_deviceid build = f_deviceid f) by reflexivity.
    assert (HE : is_port (effective_port port)) by (unfold is_port, effective_port in *; destruct (port =? 0) eqn:E; lia).
    assert (Ho : valid_oid (mkOid 8 (f_deviceid f))) by (unfold valid_oid; cbn; lia).
    assert (HU : u32 (f_deviceid f) = f_deviceid f) by (unfold u32; rewrite Z.mod_small by lia; reflexivity).
    assert (V : forall p, In p [77; 62; 121; 107] -> valid_property p) by (unfold valid_property; cbn; intros; lia).
    destruct (bread (envs k) me build ip _ _ _ _ 77 whole (rep k) EB Hi HE Hn Hm Hme Ho (V 77 ltac:(cbn; tauto)) arrayall_u32 R0) as (t0 & E0 & _).
    destruct (bread (envs (S k)) me build ip _ _ _ _ 62 whole (rep (S k)) EB Hi HE Hn Hm Hme Ho (V 62 ltac:(cbn; tauto)) arrayall_u32 R1) as (t1 & E1 & _).
    destruct (bread (envs (S (S k))) me build ip _ _ _ _ 121 whole (rep (S (S k))) EB Hi HE Hn Hm Hme Ho (V 121 ltac:(cbn; tauto)) arrayall_u32 R2) as (t2 & E2 & _).
    destruct (bread (envs (S (S (S k)))) me build ip _ _ _ _ 107 whole (rep (S (S (S k)))) EB Hi HE Hn Hm Hme Ho (V 107 ltac:(cbn; tauto)) arrayall_u32 R3) as (t3 & E3 & _).
    destruct (IH (k + 4)%nat) as (tr & bs & EL & LL & LS).
    { intros j f' a' Hj Ha'. replace (k + 4 + 4 * j)%nat with (k + 4 * S j)%nat by lia. apply HR; assumption. }
    unfold net_GetDeviceDetails, detail_props. rewrite ED, HU. change ArrayAll with whole. unfold request in *. cbn [details_loop].
    rewrite E0. cbn [nbind]. rewrite E1. cbn [nbind]. rewrite E2. cbn [nbind]. rewrite E3. cbn [nbind nret]. rewrite EL. cbn [nbind nret].
    eexists. eexists. split; [reflexivity|]. split; [cbn [length]; f_equal; exact LL|].
    intros [|j] f' a' b' H1 H2 H3; cbn [nth_error] in H1, H2, H3.
    + injection H1 as <-. injection H2 as <-. injection H3 as <-. replace (k + 4 * 0)%nat with k by lia. replace (k + 1)%nat with (S k) by lia. replace (k + 2)%nat with (S (S k)) by lia. replace (k + 3)%nat with (S (S (S k))) by lia.
      unfold set_detail. cbn [Z.eqb Pos.eqb dt_name dt_maxapdu dt_vendor dt_seg dt_services details0]. rewrite !back_text, !back_number.
      unfold net_details, b, bdevice_of_found. cbn [bd_id bd_deviceid bd_ip bd_port bd_net bd_mac bd_vendor bd_addr dt_name dt_maxapdu dt_vendor dt_seg fst snd]. rewrite Hip, dotted_spec by exact Hi. reflexivity.
    + rewrite (LS j f' a' b' H1 H2 H3). replace (k + 4 + 4 * j)%nat with (k + 4 * S j)%nat by lia. reflexivity.
Qed.

(** * Object lists *)
Lemma shown_oids : forall os, map shown (oid_values os) = map VOid os.
Proof. intro os. unfold oid_values. rewrite map_map. apply map_ext. reflexivity. Qed.
Lemma oids_all : forall os, oids (map VOid os) = Some os.
Proof. induction os as [|o os IH]; [reflexivity|]. cbn [map oids]. rewrite IH. reflexivity. Qed.
Lemma list_prop : valid_property 76. Proof. unfold valid_property. lia. Qed.
Lemma objects_whole : forall k envs me d ip port net mac id os, opened d ip port net mac -> own me -> 0 <= id <= 4194303 ->
  device_answers (envs k) ip port net mac (mkOid 8 id) 76 whole (oid_values os) ->
  exists tr, DeviceObjects k envs me d id None = (tr, COk (if Nat.eqb (length os) 1 then [] else os, d)).
Proof.
  intros k envs me d ip port net mac id os Hop Hme Hid HA.
  destruct (net_read _ me d ip port net mac (mkOid 8 id) 76 whole _ Hop Hme ltac:(unfold valid_oid; cbn; lia) list_prop arrayall_u32 HA) as (i & _ & _ & E).
  cbn [oid_inst oid_type] in E. unfold DeviceObjects, object_list. change ArrayAll with whole. rewrite E. rewrite shown_oids.
  unfold answer. cbn [pd_object o_props]. unfold ToArr, first_value. cbn [pd_object o_props pr_data].
  destruct os as [|o [|o2 os]]; cbn [map one_or_list]; [eexists; reflexivity|eexists; reflexivity|].
  change (VOid o :: VOid o2 :: map VOid os) with (map VOid (o :: o2 :: os)). rewrite oids_all. cbn [nbind nret length Nat.eqb]. eexists. reflexivity.
Qed.
Lemma builder_all : forall envs me d ip port net mac id os k i, opened d ip port net mac -> own me -> 0 <= id <= 4194303 -> 0 <= i -> i + Z.of_nat (length os) < 4294967295 ->
  (forall j o, nth_error os j = Some o -> device_answers (envs (k + j)%nat) ip port net mac (mkOid 8 id) 76 (Z.of_nat j + i) [SVal (VOid o)]) ->
  exists tr, builder_loop k envs me d id (zseq i (length os)) = (tr, COk os).
Proof.
  intros envs me d ip port net mac id. induction os as [|o os IH]; intros k i Hop Hme Hid Hi HL HA; [exists []; reflexivity|].
  cbn [length] in HL. pose proof (HA 0%nat o eq_refl) as H0. replace (k + 0)%nat with k in H0 by lia. replace (Z.of_nat 0 + i) with i in H0 by lia.
  destruct (net_read _ me d ip port net mac (mkOid 8 id) 76 i _ Hop Hme ltac:(unfold valid_oid; cbn; lia) list_prop ltac:(unfold in_u32; lia) H0) as (x & _ & _ & E).
  cbn [oid_inst oid_type] in E. cbn [length zseq builder_loop]. replace (u32 i) with i by (unfold u32; rewrite Z.mod_small by lia; reflexivity). rewrite E.
  cbn [ignoring fst snd nbind map shown as_read one_or_list first_value answer pd_object o_props pr_data].
  destruct (IH (S k) (i + 1) Hop Hme Hid ltac:(lia) ltac:(lia)) as (tr & E2).
  { intros j o' Hj. replace (S k + j)%nat with (k + S j)%nat by lia. replace (Z.of_nat j + (i + 1)) with (Z.of_nat (S j) + i) by lia. apply HA. exact Hj. }
  rewrite E2. cbn [nbind nret]. eexists. reflexivity.
Qed.
Lemma objects_fallback : forall k envs me d ip port net mac id os, opened d ip port net mac -> own me -> 0 <= id <= 4194303 -> zlen os < 4294967290 ->
  device_reply (envs k) ip port net mac (mkOid 8 id) 76 whole None ->
  device_answers (envs (S k)) ip port net mac (mkOid 8 id) 76 0 [SVal (VUint (zlen os))] ->
  element_replies envs (S (S k)) ip port net mac id os ->
  exists tr, DeviceObjects k envs me d id None = (tr, COk (os, d)).
Proof.
  intros k envs me d ip port net mac id os Hop Hme Hid HL [HF Hb] HC HE.
  assert (Ho : valid_oid (mkOid 8 id)) by (unfold valid_oid; cbn; lia).
  destruct (net_read_fails _ me d ip port net mac (mkOid 8 id) 76 whole Hop Hme Ho list_prop arrayall_u32 HF Hb) as (t0 & x & E0 & _).
  destruct (net_read _ me d ip port net mac (mkOid 8 id) 76 0 _ Hop Hme Ho list_prop ltac:(unfold in_u32; lia) HC) as (i & _ & _ & E1).
  destruct (builder_all envs me d ip port net mac id os (S (S k)) 1 Hop Hme Hid ltac:(lia) ltac:(unfold zlen in HL; lia) HE) as (t2 & E2).
  cbn [oid_inst oid_type] in *. unfold DeviceObjects, object_list, deviceObjectsBuilder. change ArrayAll with whole. rewrite E0, E1. cbn [nbind].
  change (snd (ToUint32 (answer (mkOid 8 id) 76 0 (one_or_list (map shown [SVal (VUint (zlen os))]))))) with (zlen os).
  replace (Z.to_nat (zlen os)) with (length os) by (unfold zlen; lia). rewrite E2. cbn [nbind nret]. eexists. reflexivity.
Qed.
(** an element that cannot be read takes the program down *)
Lemma builder_panics : forall k envs me d ip port net mac id n, opened d ip port net mac -> own me -> 0 <= id <= 4194303 -> 1 <= n < 4294967295 ->
  device_reply (envs k) ip port net mac (mkOid 8 id) 76 whole None ->
  device_answers (envs (S k)) ip port net mac (mkOid 8 id) 76 0 [SVal (VUint n)] ->
  device_reply (envs (S (S k))) ip port net mac (mkOid 8 id) 76 1 None ->
  exists tr, DeviceObjects k envs me d id None = (tr, CPanic).
Proof.
  intros k envs me d ip port net mac id n Hop Hme Hid HL [HF Hb] HC [HF2 Hb2].
  assert (Ho : valid_oid (mkOid 8 id)) by (unfold valid_oid; cbn; lia).
  destruct (net_read_fails _ me d ip port net mac (mkOid 8 id) 76 whole Hop Hme Ho list_prop arrayall_u32 HF Hb) as (t0 & x & E0 & _).
  destruct (net_read _ me d ip port net mac (mkOid 8 id) 76 0 _ Hop Hme Ho list_prop ltac:(unfold in_u32; lia) HC) as (i & _ & _ & E1).
  destruct (net_read_fails _ me d ip port net mac (mkOid 8 id) 76 1 Hop Hme Ho list_prop ltac:(unfold in_u32; lia) HF2 Hb2) as (t2 & x2 & E2 & _).
  cbn [oid_inst oid_type] in *. unfold DeviceObjects, object_list, deviceObjectsBuilder. change ArrayAll with whole. rewrite E0, E1. cbn [nbind].
  change (snd (ToUint32 (answer (mkOid 8 id) 76 0 (one_or_list (map shown [SVal (VUint n)]))))) with n.
  replace (Z.to_nat n) with (S (Z.to_nat (n - 1))) by lia. cbn [zseq builder_loop]. change (u32 1) with 1. rewrite E2. cbn [ignoring fst snd nbind first_value zeroPD pd_object o_props]. eexists. reflexivity.
Qed.

(** * Points *)
Lemma point_details_bool : forall k envs me d ip port net mac t i prio r, opened d ip port net mac -> own me -> valid_oid (mkOid t i) -> t = 3 \/ t = 4 \/ t = 5 ->
  device_reply (envs k) ip port net mac (mkOid t i) 77 whole r ->
  exists tr, PointDetails k envs me d (mkPoint i t prio) = (tr, COk (mkPD' (text_of r) 0 None i t (type_string t))).
Proof.
  intros k envs me d ip port net mac t i prio r Hop Hme Ho Ht HR.
  destruct (fails_reads _ me d ip port net mac (mkOid t i) 77 whole r Hop Hme Ho ltac:(unfold valid_property; lia) arrayall_u32 HR) as (tr & E & _).
  cbn [oid_inst oid_type] in E. unfold PointDetails. cbn [pt_inst pt_type]. change ArrayAll with whole. rewrite E. cbn [nbind].
  replace (isPointBool t) with true by (unfold isPointBool; lia). cbn [nret]. eexists.
  change (match r with Some vs => answer (mkOid t i) 77 whole (one_or_list (map shown vs)) | None => zeroPD end) with (read_back (mkOid t i) 77 whole r). rewrite back_text. reflexivity.
Qed.
Lemma point_details_other : forall k envs me d ip port net mac t i prio r u, opened d ip port net mac -> own me -> valid_oid (mkOid t i) -> ~ (t = 3 \/ t = 4 \/ t = 5) ->
  device_reply (envs k) ip port net mac (mkOid t i) 77 whole r -> device_reply (envs (S k)) ip port net mac (mkOid t i) 117 whole u ->
  exists tr, PointDetails k envs me d (mkPoint i t prio) = (tr, COk (mkPD' (text_of r) (number_of u) (Some (u16 (number_of u))) i t (type_string t))).
Proof.
  intros k envs me d ip port net mac t i prio r u Hop Hme Ho Ht HR HU.
  destruct (fails_reads _ me d ip port net mac (mkOid t i) 77 whole r Hop Hme Ho ltac:(unfold valid_property; lia) arrayall_u32 HR) as (tr & E & _).
  destruct (fails_reads _ me d ip port net mac (mkOid t i) 117 whole u Hop Hme Ho ltac:(unfold valid_property; lia) arrayall_u32 HU) as (tr2 & E2 & _).
  cbn [oid_inst oid_type] in *. unfold PointDetails. cbn [pt_inst pt_type]. change ArrayAll with whole. rewrite E. cbn [nbind].
  replace (isPointBool t) with false by (unfold isPointBool; lia). rewrite E2. cbn [nbind nret]. eexists.
  change (match r with Some vs => answer (mkOid t i) 77 whole (one_or_list (map shown vs)) | None => zeroPD end) with (read_back (mkOid t i) 77 whole r).
  change (match u with Some vs => answer (mkOid t i) 117 whole (one_or_list (map shown vs)) | None => zeroPD end) with (read_back (mkOid t i) 117 whole u).
  rewrite back_text, back_number. reflexivity.
Qed.
(** points of a list of objects: each reply by the object it is about *)
Lemma points_all : forall envs me d ip port net mac (name units : object_id -> option (list sent)) l k, opened d ip port net mac -> own me -> Forall valid_oid l ->
  (forall a o b, l = a ++ o :: b -> oid_type o <> 8 ->
     device_reply (envs (k + calls_before a)%nat) ip port net mac o 77 whole (name o)
     /\ (binary_type (oid_type o) = false -> device_reply (envs (k + calls_before a + 1)%nat) ip port net mac o 117 whole (units o))) ->
  exists tr, points_loop k envs me d l = (tr, COk (map (fun o => point_entry o (name o) (units o)) (filter (fun o => negb (oid_type o =? 8)) l))).
Proof.
  intros envs me d ip port net mac name units. induction l as [|o l IH]; intros k Hop Hme Hv HR; [exists []; reflexivity|].
  inversion_clear Hv as [|? ? Ho Hl]. cbn [points_loop filter]. destruct (oid_type o =? 8) eqn:E8; cbn [negb].
  - apply IH; try assumption. intros a o' b -> Hn. specialize (HR (o :: a) o' b eq_refl Hn). cbn [calls_before] in HR. replace (calls_of o) with 0%nat in HR by (unfold calls_of; rewrite E8; reflexivity). exact HR.
  - destruct (HR [] o l eq_refl ltac:(lia)) as [R1 R2]. cbn [calls_before] in R1, R2. replace (k + 0)%nat with k in * by lia. replace (k + 1)%nat with (S k) in R2 by lia.
    assert (EP : exists t0, PointDetails k envs me d (mkPoint (oid_inst o) (oid_type o) 0) = (t0, COk (point_entry o (name o) (units o)))).
    { destruct o as [t i]. cbn [oid_type oid_inst] in *. unfold point_entry. cbn [oid_type oid_inst]. destruct (binary_type t) eqn:EB.
      - apply (point_details_bool k envs me d ip port net mac t i 0 _ Hop Hme Ho); [unfold binary_type in EB; lia|exact R1].
      - apply (point_details_other k envs me d ip port net mac t i 0 _ _ Hop Hme Ho); [unfold binary_type in EB; lia|exact R1|exact (R2 eq_refl)]. }
    destruct EP as (t0 & EP). rewrite EP. cbn [nbind].
    replace (if isPointBool (oid_type o) then 1 else 2)%nat with (calls_of o).
    2:{ unfold calls_of. rewrite E8. unfold isPointBool, binary_type. reflexivity. }
    destruct (IH (k + calls_of o)%nat Hop Hme Hl) as (t1 & E1).
    { intros a o' b -> Hn. specialize (HR (o :: a) o' b eq_refl Hn). cbn [calls_before] in HR. rewrite Nat.add_assoc in HR. exact HR. }
    rewrite E1. cbn [nbind nret map]. eexists. reflexivity.
Qed.

(** * Opening devices and the store *)
Lemma new_opened : forall d ip, nd_ip d = spec_dotted ip -> is_ip ip -> 0 <= nd_net d < 65536 -> is_byte (nd_mac d) ->
  opened (with_dev d (NewBDevice (bdevice_of d))) ip 47808 (nd_net d) (nd_mac d).
Proof.
  intros d ip Ei Hip Hn Hm. split; [exact Hip|]. split; [unfold is_port; lia|]. split; [exact Hn|]. split; [exact Hm|].
  cbn [with_dev nd_dev]. rewrite (new_address (bdevice_of d) ip Ei Hip); [reflexivity| |exact Hn|exact Hm]. cbn. unfold is_port. lia.
Qed.
Lemma store_get_set : forall k k' v h, store_Get k (store_Set k' v h) = if text_eqb k k' then Some v else store_Get k h.
Proof. intros. unfold store_Get, store_Set. apply mget_mset. exact text_eqb_eq. Qed.
Lemma store_same : forall k v h, store_Get k (store_Set k v h) = Some v.
Proof. intros. rewrite store_get_set, text_eqb_refl. reflexivity. Qed.
Lemma store_other : forall k k' v h, k <> k' -> store_Get k (store_Set k' v h) = store_Get k h.
Proof. intros k k' v h N. rewrite store_get_set. destruct (text_eqb k k') eqn:E; [|reflexivity]. exfalso. apply N. apply text_eqb_eq. exact E. Qed.
Lemma get_set_device : forall k k' d h, GetDevice k (store_Set k' (IDev d) h) = (if text_eqb k k' then ROk (Some d) else GetDevice k h)
  /\ GetNetwork k (store_Set k' (IDev d) h) = (if text_eqb k k' then RPanic else GetNetwork k h).
Proof. intros. unfold GetDevice, GetNetwork. rewrite store_get_set. destruct (text_eqb k k'); split; reflexivity. Qed.
Lemma new_device : forall nid h d ip, nd_ip d = spec_dotted ip -> is_ip ip -> 0 <= nd_net d < 65536 -> is_byte (nd_mac d) ->
  exists d' h', NewDevice (Some (mkNet nid (Some (Some h)))) d = ROk (Some (d', Some (Some h')))
  /\ opened d' ip 47808 (nd_net d) (nd_mac d)
  /\ nd_id d' = nd_id d /\ nd_port d' = nd_port d /\ nd_ip d' = nd_ip d /\ nd_net d' = nd_net d /\ nd_mac d' = nd_mac d
  /\ nd_maxapdu d' = nd_maxapdu d /\ nd_seg d' = nd_seg d /\ nd_store d' = nd_store d /\ nd_name d' = nd_name d /\ nd_vendor d' = nd_vendor d
  /\ bd_deviceid (nd_dev d') = nd_id d /\ bd_id (nd_dev d') = mkOid 8 0 /\ bd_maxapdu (nd_dev d') = nd_maxapdu d
  /\ GetDevice (nd_store d) h' = ROk (Some d')
  /\ forall k, k <> nd_store d -> GetDevice k h' = GetDevice k h /\ GetNetwork k h' = GetNetwork k h.
Proof.
  intros nid h d ip Ei Hip Hn Hm. unfold NewDevice. cbn [nw_store].
  eexists. eexists. split; [reflexivity|]. split; [exact (new_opened d ip Ei Hip Hn Hm)|].
  do 13 (split; [reflexivity|]). split.
  - unfold GetDevice. cbn [with_dev nd_store]. rewrite store_same. reflexivity.
  - intros k N. unfold GetDevice, GetNetwork. rewrite store_other by exact N. split; reflexivity.
Qed.
Lemma update_device : forall sid h d ip, nd_ip d = spec_dotted ip -> is_ip ip -> 0 <= nd_net d < 65536 -> is_byte (nd_mac d) ->
  exists d' h', UpdateDevice sid d (Some h) = (d', Some h') /\ opened d' ip 47808 (nd_net d) (nd_mac d) /\ nd_id d' = nd_id d
  /\ GetDevice sid h' = ROk (Some d') /\ forall k, k <> sid -> GetDevice k h' = GetDevice k h /\ GetNetwork k h' = GetNetwork k h.
Proof.
  intros sid h d ip Ei Hip Hn Hm. eexists. eexists. split; [reflexivity|]. split; [exact (new_opened d ip Ei Hip Hn Hm)|]. split; [reflexivity|]. split.
  - unfold GetDevice. rewrite store_same. reflexivity.
  - intros k N. unfold GetDevice, GetNetwork. rewrite store_other by exact N. split; reflexivity.
Qed.
Lemma new_network : forall nid h, exists h', New (mkNet nid (Some (Some h))) = ROk (Some (mkNet nid (Some (Some h'))))
  /\ GetNetwork nid h' = ROk (Some nid) /\ forall k, k <> nid -> GetDevice k h' = GetDevice k h /\ GetNetwork k h' = GetNetwork k h.
Proof.
  intros nid h. eexists. split; [reflexivity|]. split.
  - unfold GetNetwork. rewrite store_same. reflexivity.
  - intros k N. unfold GetDevice, GetNetwork. rewrite store_other by exact N. split; reflexivity.
Qed.
Lemma store_network : forall sid h, exists h', Store_NewNetwork sid (Some h) = (Some h', true)
  /\ GetNetwork sid h' = ROk (Some []) /\ forall k, k <> sid -> GetDevice k h' = GetDevice k h /\ GetNetwork k h' = GetNetwork k h.
Proof.
  intros sid h. eexists. split; [reflexivity|]. split.
  - unfold GetNetwork. rewrite store_same. reflexivity.
  - intros k N. unfold GetDevice, GetNetwork. rewrite store_other by exact N. split; reflexivity.
Qed.

(** * Writes never crash, points written *)
Lemma wp_total : forall n k e dest data last, snd (wp_loop n k e dest data last) = COk tt \/ exists x, snd (wp_loop n k e dest data last) = CErr x.
Proof.
  induction n as [|n IH]; intros; [right; eexists; reflexivity|]. cbn [wp_loop]. destruct (exchange e k dest data) as [tr [err|[b|c x]]].
  - specialize (IH (S k) e dest data err). destruct (wp_loop n (S k) e dest data err). exact IH.
  - destruct (fst (check_apdu (newDecoder b))) as [err|]; [|left; reflexivity].
    specialize (IH (S k) e dest data err). destruct (wp_loop n (S k) e dest data err). exact IH.
  - right. eexists. reflexivity.
Qed.
Lemma write_total : forall e me dev ip port net mac o p idx v prio, dv_addr dev = point_addr ip port net mac ->
  0 <= net < 65536 -> is_byte mac -> present me = false ->
  valid_oid o -> valid_property p -> in_u32 idx -> is_byte prio -> writable v ->
  (binary_pv o p = true -> v = VNull \/ exists n, v = VUint n) -> (forall id, ev_id e = Some id -> is_byte id) ->
  let r := snd (WriteProperty e me dev (write_of o p idx v prio)) in r = COk tt \/ exists x, r = CErr x.
Proof.
  intros e me dev ip port net mac o p idx v prio Ed Hn Hm Hme Ho Hpr Hx Hb Hv Hbin Hid. cbv zeta. unfold WriteProperty.
  destruct (ev_id e) as [id|]; [|right; eexists; reflexivity]. specialize (Hid id eq_refl).
  destruct (point_header ip port net mac me Hn Hm Hme) as (hdr & EH & HL & HF). rewrite Ed, EH.
  replace (u8 id) with id by (unfold u8; unfold is_byte in Hid; lia). rewrite enc_write by assumption. cbn [eerr ebuf]. apply wp_total.
Qed.
Lemma binary_type_pv : forall t i v, t <> 4 -> t <> 5 -> binary_pv (mkOid t i) 85 = true -> v = VNull \/ exists n, v = VUint n.
Proof. intros t i v H4 H5. unfold binary_pv. cbn [oid_type]. lia. Qed.
Lemma name_pv : forall o v, binary_pv o 77 = true -> v = VNull \/ exists n, v = VUint n.
Proof. intros o v. unfold binary_pv. lia. Qed.
Lemma point_writes : forall e me d ip port net mac t i prio g, opened d ip port net mac -> own me -> valid_oid (mkOid t i) -> is_byte prio ->
  (forall x, in_u32 x -> t <> 4 -> t <> 5 -> device_acks e ip port net mac (mkOid t i) 85 (VReal x) prio g -> PointWriteAnalogue e me d (mkPoint i t prio) x = ([g], COk tt))
  /\ (forall n, in_u32 n -> device_acks e ip port net mac (mkOid t i) 85 (VUint n) prio g ->
      PointWriteBool e me d (mkPoint i t prio) n = ([g], COk tt) /\ PointWriteMultiState e me d (mkPoint i t prio) n = ([g], COk tt))
  /\ (forall s, is_bytes s -> zlen s <= 60000 -> device_acks e ip port net mac (mkOid t i) 77 (VString s) 0 g ->
      WritePointName e me d (mkPoint i t prio) s = ([g], COk tt) /\ (t = 8 -> WriteDeviceName e me d i s = ([g], COk tt))).
Proof.
  intros e me d ip port net mac t i prio g Hop Hme Ho Hb. split; [|split].
  - intros x Hx H4 H5 HA. apply (net_write e me d ip port net mac (mkOid t i) 85 (VReal x) prio g Hop Hme Ho present_value_prop Hb Hx I I (fun H => binary_type_pv t i _ H4 H5 H) HA).
  - intros n Hn HA. assert (W := net_write e me d ip port net mac (mkOid t i) 85 (VUint n) prio g Hop Hme Ho present_value_prop Hb Hn I I (fun _ => or_intror (ex_intro _ n eq_refl)) HA).
    split; exact W.
  - intros s Hs Hl HA. assert (W := net_write e me d ip port net mac (mkOid t i) 77 (VString s) 0 g Hop Hme Ho).
    assert (Hv : valid_property 77) by (unfold valid_property; lia). assert (H0 : is_byte 0) by (unfold is_byte; lia).
    assert (Hw : writable (VString s)) by (split; [exact Hs|lia]).
    specialize (W Hv H0 Hw Hl I (name_pv (mkOid t i) _) HA). split; [exact W|]. intros ->. exact W.
Qed.
Lemma point_writes_frames : forall e me d ip port net mac t i prio id, opened d ip port net mac -> own me -> valid_oid (mkOid t i) -> is_byte prio ->
  ev_id e = Some id -> is_byte id ->
  let to p v prio' := mkDgram ip port (point_frame net mac (spec_write_request id (mkOid t i) p whole v prio')) in
  (forall x, in_u32 x -> t <> 4 -> t <> 5 -> let r := PointWriteAnalogue e me d (mkPoint i t prio) x in
     (fst r = [to 85 (VReal x) prio] \/ fst r = [to 85 (VReal x) prio; to 85 (VReal x) prio]) /\ (snd r = COk tt \/ exists x, snd r = CErr x))
  /\ (forall n, in_u32 n -> let r := PointWriteBool e me d (mkPoint i t prio) n in
     PointWriteMultiState e me d (mkPoint i t prio) n = r
     /\ (fst r = [to 85 (VUint n) prio] \/ fst r = [to 85 (VUint n) prio; to 85 (VUint n) prio]) /\ (snd r = COk tt \/ exists x, snd r = CErr x))
  /\ (forall s, is_bytes s -> zlen s <= 60000 -> let r := WritePointName e me d (mkPoint i t prio) s in
     (fst r = [to 77 (VString s) 0] \/ fst r = [to 77 (VString s) 0; to 77 (VString s) 0]) /\ (snd r = COk tt \/ exists x, snd r = CErr x)).
Proof.
  intros e me d ip port net mac t i prio id Hop Hme Ho Hb Hid Hidb to. pose proof Hop as (Hi & Hp & Hn & Hm & Ha).
  assert (HI : forall id', ev_id e = Some id' -> is_byte id') by (intros id' E; congruence).
  split; [|split].
  - intros x Hx H4 H5 r. split.
    + exact (net_write_frames e me d ip port net mac (mkOid t i) 85 (VReal x) prio id Hop Hme Ho present_value_prop Hb Hx I I (fun H => binary_type_pv t i _ H4 H5 H) Hid Hidb).
    + exact (write_total e me (as_device (nd_dev d)) ip port net mac (mkOid t i) 85 whole (VReal x) prio Ha Hn Hm (own_absent me Hme) Ho present_value_prop arrayall_u32 Hb Hx (fun H => binary_type_pv t i _ H4 H5 H) HI).
  - intros n Hx r. split; [reflexivity|]. split.
    + exact (net_write_frames e me d ip port net mac (mkOid t i) 85 (VUint n) prio id Hop Hme Ho present_value_prop Hb Hx I I (fun _ => or_intror (ex_intro _ n eq_refl)) Hid Hidb).
    + exact (write_total e me (as_device (nd_dev d)) ip port net mac (mkOid t i) 85 whole (VUint n) prio Ha Hn Hm (own_absent me Hme) Ho present_value_prop arrayall_u32 Hb Hx (fun _ => or_intror (ex_intro _ n eq_refl)) HI).
  - intros s Hs Hl r.
    assert (Hv : valid_property 77) by (unfold valid_property; lia). assert (H0 : is_byte 0) by (unfold is_byte; lia).
    assert (Hw : writable (VString s)) by (split; [exact Hs|lia]). split.
    + exact (net_write_frames e me d ip port net mac (mkOid t i) 77 (VString s) 0 id Hop Hme Ho Hv H0 Hw Hl I (name_pv (mkOid t i) _) Hid Hidb).
    + exact (write_total e me (as_device (nd_dev d)) ip port net mac (mkOid t i) 77 whole (VString s) 0 Ha Hn Hm (own_absent me Hme) Ho Hv arrayall_u32 H0 Hw (name_pv (mkOid t i) _) HI).
Qed.
Lemma release_priority : forall e me d ip port net mac t i prio0 prio, opened d ip port net mac -> own me -> valid_oid (mkOid t i) ->
  (~ 1 <= prio <= 16 -> fst (PointReleasePriority e me d (Some (mkPoint i t prio0)) prio) = [] /\ exists x, snd (PointReleasePriority e me d (Some (mkPoint i t prio0)) prio) = CErr x)
  /\ (1 <= prio <= 16 ->
      (forall g, device_acks e ip port net mac (mkOid t i) 85 VNull prio g -> PointReleasePriority e me d (Some (mkPoint i t prio0)) prio = ([g], COk tt))
      /\ forall id, ev_id e = Some id -> is_byte id ->
         let g := mkDgram ip port (point_frame net mac (spec_write_request id (mkOid t i) 85 whole VNull prio)) in
         let r := PointReleasePriority e me d (Some (mkPoint i t prio0)) prio in fst r = [g] \/ fst r = [g; g]).
Proof.
  intros e me d ip port net mac t i prio0 prio Hop Hme Ho. unfold PointReleasePriority. split; intro Hr.
  - replace ((16 <? prio) || (prio <? 1)) with true by lia. split; [reflexivity|]. eexists. reflexivity.
  - replace ((16 <? prio) || (prio <? 1)) with false by lia. assert (Hb : is_byte prio) by (unfold is_byte; lia).
    cbn [pt_inst pt_type]. pose proof (write_null_eq e me d (mkOid t i) 85 VNil prio) as EQ. cbn [oid_inst oid_type] in EQ. split.
    + intros g HA. rewrite EQ.
      exact (net_write e me d ip port net mac (mkOid t i) 85 VNull prio g Hop Hme Ho present_value_prop Hb I I I (fun _ => or_introl eq_refl) HA).
    + intros id Hid Hidb. cbv zeta. rewrite EQ.
      exact (net_write_frames e me d ip port net mac (mkOid t i) 85 VNull prio id Hop Hme Ho present_value_prop Hb I I I (fun _ => or_introl eq_refl) Hid Hidb).
Qed.

(** * Discovery without a Who-Is answer, points of a device *)
Lemma network_discover : forall envs me rep fs addrs, own me -> Forall2 (fun f a => good_found f (fst a) (snd a)) fs addrs ->
  (forall j f a, nth_error fs j = Some f -> nth_error addrs j = Some a ->
     detail_replies envs (4 * j) (fst a) (effective_port (snd a)) (f_netnum f) (f_macmstp f) (f_deviceid f) rep) ->
  exists tr bs, NetworkDiscover envs me (inr fs) = (tr, COk bs) /\ length bs = length fs
  /\ (forall j f a b, nth_error fs j = Some f -> nth_error addrs j = Some a -> nth_error bs j = Some b ->
      b = mkBD (f_id f) (f_deviceid f) (spec_dotted (fst a)) (snd a) (f_netnum f) (f_macmstp f)
            (number_of (rep (4 * j + 1)%nat)) (number_of (rep (4 * j + 3)%nat)) (f_vendor f) (f_addr f)
            (text_of (rep (4 * j)%nat)) (text_of (rep (4 * j + 2)%nat))).
Proof. intros envs me rep fs addrs Hme HF HR. exact (net_discover_spec envs me rep fs addrs 0 Hme HF HR). Qed.
Lemma noted_dev : forall fs d id, nd_dev (noted d id fs) = nd_dev d.
Proof.
  unfold noted. induction fs as [|f fs IH]; intros d id; [reflexivity|]. cbn [fold_left]. rewrite IH. destruct (oid_inst (f_id f) =? id); reflexivity.
Qed.
Lemma device_points : forall envs penvs me d ip port net mac id fs os name units, opened d ip port net mac -> own me -> 0 <= id <= 4194303 ->
  Forall valid_oid os -> length os <> 1%nat ->
  device_answers (envs 0%nat) ip port net mac (mkOid 8 id) 76 whole (oid_values os) ->
  (forall a o b, os = a ++ o :: b -> oid_type o <> 8 ->
     device_reply (penvs (calls_before a)) ip port net mac o 77 whole (name o)
     /\ (binary_type (oid_type o) = false -> device_reply (penvs (calls_before a + 1)%nat) ip port net mac o 117 whole (units o))) ->
  exists tr, GetDevicePoints envs penvs me d id (inr fs)
    = (tr, COk (map (fun o => point_entry o (name o) (units o)) (filter (fun o => negb (oid_type o =? 8)) os))).
Proof.
  intros envs penvs me d ip port net mac id fs os name units Hop Hme Hid Ho HL HA HR. unfold GetDevicePoints, DeviceObjects.
  assert (Hop' : opened (noted d id fs) ip port net mac).
  { destruct Hop as (A & B & C & D & E). unfold opened. rewrite noted_dev. auto. }
  destruct (objects_whole 0 envs me (noted d id fs) ip port net mac id os Hop' Hme Hid HA) as (tr & E).
  unfold DeviceObjects in E. rewrite E. cbn [nbind fst snd]. replace (Nat.eqb (length os) 1) with false by lia.
  destruct (points_all penvs me (noted d id fs) ip port net mac name units os 0 Hop' Hme Ho HR) as (tr' & E'). rewrite E'. eexists. reflexivity.
Qed.

(** * The scan of the discovery command *)
Lemma scan_exact : forall size rs, scan_ranges size = ROk rs -> forall k r, nth_error rs k = Some r ->
  r = (Z.of_nat k * size, Z.of_nat k * size).
Proof.
  intros size rs H k r Hk. unfold scan_ranges in H. destruct (size =? 0); [discriminate|]. injection H as <-.
  rewrite nth_error_map in Hk. assert (Z0 : forall n s k x, nth_error (zseq s n) k = Some x -> x = s + Z.of_nat k).
  { induction n as [|n IH]; intros s [|k'] x E; cbn in E; try discriminate; [injection E as <-; lia|]. apply IH in E. lia. }
  destruct (nth_error (zseq 0 _) k) eqn:E; [|discriminate]. injection Hk as <-. apply Z0 in E. f_equal; lia.
Qed.
Lemma zseq_len : forall n s, length (zseq s n) = n. Proof. induction n as [|n IH]; intro s; cbn; [reflexivity|]. rewrite IH. reflexivity. Qed.
Lemma scan_covers : forall size n, 1 <= size <= 4194303 -> 0 <= n <= 4194303 ->
  exists rs r, scan_ranges size = ROk rs /\ In r rs /\ zlen rs = 4194303 / size
  /\ requested_low (mkWho (fst r) (snd r) false 0) <= n <= requested_high (mkWho (fst r) (snd r) false 0).
Proof.
  intros size n Hs Hn. unfold scan_ranges. replace (size =? 0) with false by lia. eexists. exists (0, 0).
  assert (1 <= MaxInstance / size) by (apply Z.div_le_lower_bound; unfold MaxInstance; lia).
  split; [reflexivity|]. split.
  - destruct (Z.to_nat (MaxInstance / size)) as [|m] eqn:E; [lia|]. cbn [zseq map]. left. reflexivity.
  - split; [|unfold requested_low, requested_high; cbn; lia]. unfold zlen. rewrite map_length, zseq_len. unfold MaxInstance in *. lia.
Qed.
Lemma scan_large : forall size, 4194303 < size -> scan_ranges size = ROk [].
Proof. intros size H. unfold scan_ranges. replace (size =? 0) with false by lia. rewrite Z.div_small by (unfold MaxInstance; lia). reflexivity. Qed.
Lemma scan_zero : scan_ranges 0 = RPanic. Proof. reflexivity. Qed.

(** * Closing *)
Lemma close_exact : forall c b, In ClosedSocket (ClientClose c b) <-> b = false /\ cl_link c <> None.
Proof. intros [[l|] m] []; cbn; split; intros H; try (destruct H as [H|H]; [discriminate|contradiction]); try contradiction; try (destruct H as [E N]; congruence); [split; [reflexivity|discriminate]|left; reflexivity]. Qed.

(** * Created devices (C60) *)
Lemma effective_range : forall p, is_port p -> is_port (effective_port p).
Proof. intros p H. unfold is_port, effective_port in *. destruct (p =? 0); lia. Qed.
Lemma created_read : forall e me b ip o p idx id, bd_ip b = spec_dotted ip -> is_ip ip -> is_port (bd_port b) -> 0 <= bd_net b < 65536 -> is_byte (bd_mac b) ->
  own me -> valid_oid o -> valid_property p -> in_u32 idx -> ev_id e = Some id -> is_byte id ->
  fst (ReadProperty e me (as_device (NewBDevice b)) (request o p idx))
  = [mkDgram ip (effective_port (bd_port b)) (point_frame (bd_net b) (bd_mac b) (spec_read_request id o p idx))].
Proof.
  intros e me b ip o p idx id Ei Hip Hp Hn Hm Hme Ho Hpr Hx Hid Hb.
  exact (proj1 (proj2 (read_at e me (as_device (NewBDevice b)) ip _ _ _ o p idx (new_address b ip Ei Hip Hp Hn Hm) Hip (effective_range _ Hp) Hn Hm (own_absent me Hme) Ho Hpr Hx) id Hid Hb)).
Qed.
Lemma created_write : forall e me b ip o p v prio id, bd_ip b = spec_dotted ip -> is_ip ip -> is_port (bd_port b) -> 0 <= bd_net b < 65536 -> is_byte (bd_mac b) ->
  own me -> valid_oid o -> valid_property p -> is_byte prio -> writable v -> fits v -> written_standard v ->
  (binary_pv o p = true -> v = VNull \/ exists n, v = VUint n) -> ev_id e = Some id -> is_byte id ->
  let g := mkDgram ip (effective_port (bd_port b)) (point_frame (bd_net b) (bd_mac b) (spec_write_request id o p whole v prio)) in
  let tr := fst (WriteProperty e me (as_device (NewBDevice b)) (write_of o p whole v prio)) in tr = [g] \/ tr = [g; g].
Proof.
  intros e me b ip o p v prio id Ei Hip Hp Hn Hm Hme Ho Hpr Hprio Hw Hf Hst Hbin Hid Hb.
  set (d := mkND [] 0 0 0 0 0 0 [] [] [] (NewBDevice b)).
  assert (Hop : opened d ip (effective_port (bd_port b)) (bd_net b) (bd_mac b)).
  { split; [exact Hip|]. split; [exact (effective_range _ Hp)|]. split; [exact Hn|]. split; [exact Hm|]. exact (new_address b ip Ei Hip Hp Hn Hm). }
  exact (net_write_frames e me d ip _ _ _ o p v prio id Hop Hme Ho Hpr Hprio Hw Hf Hst Hbin Hid Hb).
Qed.
(** * Priority arrays read from a device (C63) *)
Lemma priority_crashes : forall e me d ip port net mac t i prio vs x, opened d ip port net mac -> own me -> valid_oid (mkOid t i) ->
  device_answers e ip port net mac (mkOid t i) 87 whole vs -> length vs <> 1%nat -> In (SVal (VReal x)) vs ->
  exists g, PointReadPriority e me d (mkPoint i t prio) = ([g], CPanic).
Proof.
  intros e me d ip port net mac t i prio vs x Hop Hme Ho HA HL HI.
  destruct (point_priority e me d ip port net mac t i prio vs Hop Hme Ho HA HL) as (g & E). exists g. rewrite E.
  rewrite build_panics; [reflexivity|rewrite map_length; exact HL|]. exists (VReal x).
  split; [exact (in_map shown vs _ HI)|]. split; [discriminate|intro n; discriminate].
Qed.
Lemma priority_plain : forall e me d ip port net mac t i prio vs, opened d ip port net mac -> own me -> valid_oid (mkOid t i) ->
  device_answers e ip port net mac (mkOid t i) 87 whole vs -> length vs = 16%nat -> Forall (fun v => v = SVal VNull \/ exists n, v = SVal (VUint n) /\ in_u32 n) vs ->
  exists g r, PointReadPriority e me d (mkPoint i t prio) = ([g], COk r) /\ Forall2 slot_holds (map shown vs) (slots r).
Proof.
  intros e me d ip port net mac t i prio vs Hop Hme Ho HA HL HP.
  destruct (point_priority e me d ip port net mac t i prio vs Hop Hme Ho HA ltac:(lia)) as (g & E). exists g. rewrite E.
  assert (PL : Forall plain_slot (map shown vs)).
  { rewrite Forall_map. revert HP. apply Forall_impl. intros a [-> | (n & -> & Hn)]; [exact I|exact Hn]. }
  destruct (build_plain (mkOid t i) 87 whole (map shown vs) t PL ltac:(rewrite map_length; lia)) as (r & ER & F2 & _). rewrite ER.
  exists r. split; [reflexivity|]. rewrite firstn_all2 in F2 by (rewrite map_length; lia). rewrite map_length, HL in F2.
  rewrite firstn_all2 in F2 by (rewrite slots_len; lia). exact F2.
Qed.
(** * Points of whatever list was read (C83) *)
Lemma objects_keep : forall k envs me d id w tr os d', DeviceObjects k envs me d id w = (tr, COk (os, d')) -> nd_dev d' = nd_dev d.
Proof.
  intros k envs me d id w tr os d' H. unfold DeviceObjects in H.
  assert (K : forall d1, (nbind (object_list k envs me d1 id) (fun l => nret (l, d1))) = (tr, COk (os, d')) -> d' = d1).
  { intros d1 E. destruct (object_list k envs me d1 id) as [t0 [l|x| |]]; cbn in E; try discriminate. congruence. }
  destruct w as [[x|fs]|]; [discriminate| |]; apply K in H; subst d'; [apply noted_dev|reflexivity].
Qed.
Lemma device_points_any : forall envs penvs me d ip port net mac id w tr os d' name units, opened d ip port net mac -> own me ->
  DeviceObjects 0 envs me d id (Some w) = (tr, COk (os, d')) -> Forall valid_oid os ->
  (forall a o b, os = a ++ o :: b -> oid_type o <> 8 ->
     device_reply (penvs (calls_before a)) ip port net mac o 77 whole (name o)
     /\ (binary_type (oid_type o) = false -> device_reply (penvs (calls_before a + 1)%nat) ip port net mac o 117 whole (units o))) ->
  exists tr', GetDevicePoints envs penvs me d id w
    = (tr', COk (map (fun o => point_entry o (name o) (units o)) (filter (fun o => negb (oid_type o =? 8)) os))).
Proof.
  intros envs penvs me d ip port net mac id w tr os d' name units Hop Hme HD Ho HR. unfold GetDevicePoints. rewrite HD. cbn [nbind fst snd].
  assert (Hop' : opened d' ip port net mac).
  { pose proof (objects_keep _ _ _ _ _ _ _ _ _ HD) as E. destruct Hop as (A & B & C & D & F). unfold opened. rewrite E. auto. }
  destruct (points_all penvs me d' ip port net mac name units os 0 Hop' Hme Ho HR) as (tr' & E'). rewrite E'. eexists. reflexivity.
Qed.
Lemma release_refuses : forall e me d p prio, ~ 1 <= prio <= 16 ->
  fst (PointReleasePriority e me d p prio) = [] /\ exists x, snd (PointReleasePriority e me d p prio) = CErr x.
Proof.
  intros e me d [p|] prio H; cbn [PointReleasePriority]; [|split; [reflexivity|eexists; reflexivity]].
  replace ((16 <? prio) || (prio <? 1)) with true by lia. split; [reflexivity|eexists; reflexivity].
Qed.
