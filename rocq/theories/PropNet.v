(** Package network: opening devices, the store, reads, writes, discovery, object
    lists, the scan of the command line tool, closing (C65-C67, C74-C85). *)
From Coq Require Import String Permutation.
From Verif Require Import ModelNet SpecNet SpecWire SpecLayers SpecServices SpecObs SpecClient ProofsTypes ProofsNet PropTypes.
Close Scope string_scope.
Import ListNotations.
Open Scope list_scope.
Open Scope Z_scope.

Definition ex_bd : bdevice := mkBD (mkOid 0 0) 0 [] 0 0 0 0 0 0 addr0 [] [].
Definition ex_asked : ndevice := mkND (txt "192.168.0.7"%string) 47809 5 300 4 1476 0 (txt "d1"%string) [] [] ex_bd.
(** calls in which no transaction can be started, and answered ones *)
Definition ex_dead : env := mkEnv None (fun _ _ => mkAtt false None).
Lemma ex_dead_fails : device_fails ex_dead. Proof. intros k g. left. reflexivity. Qed.
Lemma ex_dead_ids : forall id, ev_id ex_dead = Some id -> is_byte id. Proof. intros id E. discriminate E. Qed.
Definition ex_acked : env := mkEnv (Some 7) (fun _ _ => mkAtt true (Some (PBytes (spec_simple_ack 7 15)))).
Lemma ex_acks : forall ip port net mac o p v prio,
  device_acks ex_acked ip port net mac o p v prio (mkDgram ip port (point_frame net mac (spec_write_request 7 o p ArrayAll v prio))).
Proof. intros. exists 7. split; [reflexivity|]. split; [split; discriminate || reflexivity|]. repeat split. Qed.

(** * C65: false: the port the caller gave is ignored, and so is the device id in the
    identifier of the opened device *)
Theorem c65_identity_refuted : exists h d d' s, nd_port d = 47809 /\ nd_id d = 5
  /\ NewDevice (Some (mkNet [] (Some (Some h)))) d = ROk (Some (d', s))
  /\ addr_UDPAddr (bd_addr (nd_dev d')) = Some ([192; 168; 0; 7], 47808) /\ bd_id (nd_dev d') = mkOid 8 0.
Proof. exists [], ex_asked. eexists. eexists. repeat split. Qed.
Print Assumptions c65_identity_refuted.
Theorem c65_opened_device_exact_partial : forall nid h d ip, nd_ip d = spec_dotted ip -> is_ip ip -> 0 <= nd_net d < 65536 -> is_byte (nd_mac d) ->
  exists d' h', NewDevice (Some (mkNet nid (Some (Some h)))) d = ROk (Some (d', Some (Some h')))
  /\ opened d' ip 47808 (nd_net d) (nd_mac d)
  /\ nd_id d' = nd_id d /\ nd_port d' = nd_port d /\ nd_ip d' = nd_ip d /\ nd_net d' = nd_net d /\ nd_mac d' = nd_mac d
  /\ nd_maxapdu d' = nd_maxapdu d /\ nd_seg d' = nd_seg d /\ nd_store d' = nd_store d /\ nd_name d' = nd_name d /\ nd_vendor d' = nd_vendor d
  /\ bd_deviceid (nd_dev d') = nd_id d /\ bd_id (nd_dev d') = mkOid 8 0 /\ bd_maxapdu (nd_dev d') = nd_maxapdu d
  /\ GetDevice (nd_store d) h' = ROk (Some d')
  /\ forall k, k <> nd_store d -> GetDevice k h' = GetDevice k h /\ GetNetwork k h' = GetNetwork k h.
Proof. exact new_device. Qed.
Print Assumptions c65_opened_device_exact_partial.
Example c65_ex : nd_ip ex_asked = spec_dotted [192; 168; 0; 7] /\ nd_store ex_asked = txt "d1"%string
  /\ (exists d' h', NewDevice (Some (mkNet [] (Some (Some [])))) ex_asked = ROk (Some (d', Some (Some h')))
      /\ opened d' [192; 168; 0; 7] 47808 300 4 /\ GetDevice (txt "d1"%string) h' = ROk (Some d')).
Proof.
  split; [reflexivity|]. split; [reflexivity|]. eexists. eexists. split; [reflexivity|]. split; [|reflexivity].
  split; [exact ex_ip|]. repeat split; try discriminate.
Qed.

(** * C74: false: a network kept by Store.NewNetwork has no Store, so opening a device
    on it crashes; so does network.New without a Store *)
Theorem c74_open_on_stored_network_refuted : exists h, Store_NewNetwork (txt "n1"%string) (Some []) = (Some h, true)
  /\ GetNetwork (txt "n1"%string) h = ROk (Some (nw_id built_network)) /\ forall d, NewDevice (Some built_network) d = RPanic.
Proof. eexists. split; [reflexivity|]. split; reflexivity. Qed.
Print Assumptions c74_open_on_stored_network_refuted.
Theorem c74_new_without_store_refuted : forall nid, New (mkNet nid None) = RPanic.
Proof. reflexivity. Qed.
Print Assumptions c74_new_without_store_refuted.
(** a network made by network.New with a Store works and is found in it *)
Theorem c74_network_partial : forall nid h, exists h', New (mkNet nid (Some (Some h))) = ROk (Some (mkNet nid (Some (Some h'))))
  /\ GetNetwork nid h' = ROk (Some nid) /\ forall k, k <> nid -> GetDevice k h' = GetDevice k h /\ GetNetwork k h' = GetNetwork k h.
Proof. exact new_network. Qed.
Print Assumptions c74_network_partial.
Example c74_ex : exists n d' h', New (mkNet (txt "n1"%string) (Some (Some []))) = ROk (Some n)
  /\ NewDevice (Some n) ex_asked = ROk (Some (d', Some (Some h')))
  /\ GetNetwork (txt "n1"%string) h' = ROk (Some (txt "n1"%string)) /\ GetDevice (txt "d1"%string) h' = ROk (Some d').
Proof. eexists. eexists. eexists. split; [reflexivity|]. split; [reflexivity|]. split; reflexivity. Qed.

(** * C75: false: asking for a network under the id of a device crashes, and the
    other way round *)
Theorem c75_wrong_kind_refuted : exists h1 h2, GetNetwork (txt "x"%string) h1 = RPanic /\ GetDevice (txt "x"%string) h2 = RPanic
  /\ h1 = store_Set (txt "x"%string) (IDev ex_asked) [] /\ fst (Store_NewNetwork (txt "x"%string) (Some [])) = Some h2.
Proof. exists (store_Set (txt "x"%string) (IDev ex_asked) []), [(txt "x"%string, INet [])]. split; [reflexivity|]. split; [reflexivity|]. split; reflexivity. Qed.
Print Assumptions c75_wrong_kind_refuted.
Theorem c75_device_stored_partial : forall sid h d ip, nd_ip d = spec_dotted ip -> is_ip ip -> 0 <= nd_net d < 65536 -> is_byte (nd_mac d) ->
  exists d' h', UpdateDevice sid d (Some h) = (d', Some h') /\ opened d' ip 47808 (nd_net d) (nd_mac d) /\ nd_id d' = nd_id d
  /\ GetDevice sid h' = ROk (Some d') /\ forall k, k <> sid -> GetDevice k h' = GetDevice k h /\ GetNetwork k h' = GetNetwork k h.
Proof. exact update_device. Qed.
Print Assumptions c75_device_stored_partial.
Theorem c75_network_stored_partial : forall sid h, exists h', Store_NewNetwork sid (Some h) = (Some h', true)
  /\ GetNetwork sid h' = ROk (Some []) /\ forall k, k <> sid -> GetDevice k h' = GetDevice k h /\ GetNetwork k h' = GetNetwork k h.
Proof. exact store_network. Qed.
Print Assumptions c75_network_stored_partial.
Theorem c75_lookup_exact_partial : forall k k' d h, GetDevice k (store_Set k' (IDev d) h) = (if text_eqb k k' then ROk (Some d) else GetDevice k h)
  /\ GetNetwork k (store_Set k' (IDev d) h) = (if text_eqb k k' then RPanic else GetNetwork k h).
Proof. exact get_set_device. Qed.
Print Assumptions c75_lookup_exact_partial.
Example c75_ex : exists d' h', UpdateDevice (txt "a"%string) ex_asked (Some [(txt "b"%string, INet [])]) = (d', Some h')
  /\ GetDevice (txt "a"%string) h' = ROk (Some d') /\ GetNetwork (txt "b"%string) h' = ROk (Some []) /\ GetDevice (txt "c"%string) h' = ROk None.
Proof. eexists. eexists. split; [reflexivity|]. repeat split. Qed.

(** * C76: false: a present value of another type is reported as 0 without an error *)
Theorem c76_point_read_refuted : exists e vs, device_answers e [192; 168; 0; 7] 47808 300 4 (mkOid 2 3) 85 whole vs /\ vs = [SVal (VUint 21)]
  /\ snd (PointReadFloat32 e ex_me ex_nd (mkPoint 3 2 0)) = COk 0.
Proof.
  exists (ex_answer (mkOid 2 3) 85 [SVal (VUint 21)]), [SVal (VUint 21)]. split; [|split; [reflexivity|vm_compute; reflexivity]].
  apply ex_answers. constructor; [cbn; split; discriminate || reflexivity|constructor].
Qed.
Print Assumptions c76_point_read_refuted.
Theorem c76_point_float_exact_partial : forall e me d ip port net mac t i prio vs, opened d ip port net mac -> own me -> valid_oid (mkOid t i) ->
  device_answers e ip port net mac (mkOid t i) 85 whole vs ->
  exists g, PointReadFloat32 e me d (mkPoint i t prio) = ([g], COk (match vs with [SVal (VReal x)] => x | _ => 0 end)).
Proof. exact point_float. Qed.
Print Assumptions c76_point_float_exact_partial.
Theorem c76_point_unsigned_exact_partial : forall e me d ip port net mac t i prio vs, opened d ip port net mac -> own me -> valid_oid (mkOid t i) ->
  device_answers e ip port net mac (mkOid t i) 85 whole vs ->
  exists g, PointReadBool e me d (mkPoint i t prio) = ([g], COk (match vs with [SVal (VUint n)] | [SVal (VEnum n)] => n | _ => 0 end))
  /\ PointReadMultiState e me d (mkPoint i t prio) = PointReadBool e me d (mkPoint i t prio).
Proof. exact point_unsigned. Qed.
Print Assumptions c76_point_unsigned_exact_partial.
Theorem c76_names_exact_partial : forall e me d ip port net mac t i prio vs, opened d ip port net mac -> own me -> valid_oid (mkOid t i) ->
  device_answers e ip port net mac (mkOid t i) 77 whole vs ->
  exists g, ReadPointName e me d (mkPoint i t prio) = ([g], COk (text_of (Some vs))) /\ (t = 8 -> ReadDeviceName e me d i = ([g], COk (text_of (Some vs)))).
Proof. exact read_names. Qed.
Print Assumptions c76_names_exact_partial.
Theorem c76_string_exact_partial : forall e me d ip port net mac o p idx vs, opened d ip port net mac -> own me -> valid_oid o -> valid_property p -> in_u32 idx ->
  device_answers e ip port net mac o p idx vs ->
  exists g, ReadString e me d (Some (mkNO (oid_inst o) (oid_type o) p idx)) = ([g], COk (text_of (Some vs))).
Proof. exact read_string. Qed.
Print Assumptions c76_string_exact_partial.
Theorem c76_failed_read_partial : forall e me d ip port net mac t i prio, opened d ip port net mac -> own me -> valid_oid (mkOid t i) ->
  device_fails e -> (forall id, ev_id e = Some id -> is_byte id) ->
  exists tr x, PointReadFloat32 e me d (mkPoint i t prio) = (tr, CErr x) /\ PointReadBool e me d (mkPoint i t prio) = (tr, CErr x)
  /\ PointReadMultiState e me d (mkPoint i t prio) = (tr, CErr x).
Proof. exact point_reads_fail. Qed.
Print Assumptions c76_failed_read_partial.
Theorem c76_read_sends_partial : forall e me d ip port net mac o p idx g, opened d ip port net mac -> own me ->
  valid_oid o -> valid_property p -> in_u32 idx -> (forall id, ev_id e = Some id -> is_byte id) ->
  In g (fst (Read e me d (Some (mkNO (oid_inst o) (oid_type o) p idx)))) ->
  exists id, ev_id e = Some id /\ g = mkDgram ip port (point_frame net mac (spec_read_request id o p idx)).
Proof. exact net_read_frames. Qed.
Print Assumptions c76_read_sends_partial.
Example c76_ex : snd (PointReadFloat32 (ex_answer (mkOid 2 3) 85 [SVal (VReal 1101529088)]) ex_me ex_nd (mkPoint 3 2 0)) = COk 1101529088
  /\ snd (PointReadBool (ex_answer (mkOid 4 3) 85 [SVal (VEnum 1)]) ex_me ex_nd (mkPoint 3 4 0)) = COk 1
  /\ snd (ReadDeviceName (ex_answer (mkOid 8 5) 77 [SVal (VString [65; 66])]) ex_me ex_nd 5) = COk [65; 66]
  /\ snd (PointReadFloat32 ex_dead ex_me ex_nd (mkPoint 3 2 0)) = CErr CNoId.
Proof. vm_compute. repeat split. Qed.

(** * C77: point writes are the standard's requests to that object *)
Theorem c77_point_writes : forall e me d ip port net mac t i prio g, opened d ip port net mac -> own me -> valid_oid (mkOid t i) -> is_byte prio ->
  (forall x, in_u32 x -> t <> 4 -> t <> 5 -> device_acks e ip port net mac (mkOid t i) 85 (VReal x) prio g -> PointWriteAnalogue e me d (mkPoint i t prio) x = ([g], COk tt))
  /\ (forall n, in_u32 n -> device_acks e ip port net mac (mkOid t i) 85 (VUint n) prio g ->
      PointWriteBool e me d (mkPoint i t prio) n = ([g], COk tt) /\ PointWriteMultiState e me d (mkPoint i t prio) n = ([g], COk tt))
  /\ (forall s, is_bytes s -> zlen s <= 60000 -> device_acks e ip port net mac (mkOid t i) 77 (VString s) 0 g ->
      WritePointName e me d (mkPoint i t prio) s = ([g], COk tt) /\ (t = 8 -> WriteDeviceName e me d i s = ([g], COk tt))).
Proof. exact point_writes. Qed.
Print Assumptions c77_point_writes.
Theorem c77_point_write_frames : forall e me d ip port net mac t i prio id, opened d ip port net mac -> own me -> valid_oid (mkOid t i) -> is_byte prio ->
  ev_id e = Some id -> is_byte id ->
  let to p v prio' := mkDgram ip port (point_frame net mac (spec_write_request id (mkOid t i) p whole v prio')) in
  (forall x, in_u32 x -> t <> 4 -> t <> 5 -> let r := PointWriteAnalogue e me d (mkPoint i t prio) x in
     (fst r = [to 85 (VReal x) prio] \/ fst r = [to 85 (VReal x) prio; to 85 (VReal x) prio]) /\ (snd r = COk tt \/ exists x, snd r = CErr x))
  /\ (forall n, in_u32 n -> let r := PointWriteBool e me d (mkPoint i t prio) n in
     PointWriteMultiState e me d (mkPoint i t prio) n = r
     /\ (fst r = [to 85 (VUint n) prio] \/ fst r = [to 85 (VUint n) prio; to 85 (VUint n) prio]) /\ (snd r = COk tt \/ exists x, snd r = CErr x))
  /\ (forall s, is_bytes s -> zlen s <= 60000 -> let r := WritePointName e me d (mkPoint i t prio) s in
     (fst r = [to 77 (VString s) 0] \/ fst r = [to 77 (VString s) 0; to 77 (VString s) 0]) /\ (snd r = COk tt \/ exists x, snd r = CErr x)).
Proof. exact point_writes_frames. Qed.
Print Assumptions c77_point_write_frames.
Example c77_ex : PointWriteAnalogue ex_acked ex_me ex_nd (mkPoint 3 2 8) 1101529088
    = ([mkDgram [192; 168; 0; 7] 47808 (point_frame 300 4 [0; 5; 7; 15; 12; 0; 128; 0; 3; 25; 85; 62; 68; 65; 168; 0; 0; 63; 73; 8])], COk tt)
  /\ PointWriteBool ex_acked ex_me ex_nd (mkPoint 3 4 8) 1
    = ([mkDgram [192; 168; 0; 7] 47808 (point_frame 300 4 [0; 5; 7; 15; 12; 1; 0; 0; 3; 25; 85; 62; 145; 1; 63; 73; 8])], COk tt).
Proof. vm_compute. split; reflexivity. Qed.

(** * C78: false: an analogue write to a binary output or value crashes the caller *)
Theorem c78_write_never_crashes_refuted : forall e me d ip port net mac t i prio x id, opened d ip port net mac -> own me -> valid_oid (mkOid t i) -> t = 4 \/ t = 5 ->
  ev_id e = Some id -> is_byte id -> PointWriteAnalogue e me d (mkPoint i t prio) x = ([], CPanic).
Proof. exact analogue_binary. Qed.
Print Assumptions c78_write_never_crashes_refuted.
(** any other write of a writable value ends with success or an error *)
Theorem c78_write_total_partial : forall e me dev ip port net mac o p idx v prio, dv_addr dev = mkAddr net 0 0 (ip ++ octets 2 port) [mac] ->
  0 <= net < 65536 -> is_byte mac -> present me = false ->
  valid_oid o -> valid_property p -> in_u32 idx -> is_byte prio -> writable v ->
  (binary_pv o p = true -> v = VNull \/ exists n, v = VUint n) -> (forall id, ev_id e = Some id -> is_byte id) ->
  let r := snd (WriteProperty e me dev (write_of o p idx v prio)) in r = COk tt \/ exists x, r = CErr x.
Proof. exact write_total. Qed.
Print Assumptions c78_write_total_partial.
Example c78_ex : PointWriteAnalogue ex_acked ex_me ex_nd (mkPoint 3 5 8) 0 = ([], CPanic)
  /\ snd (PointWriteAnalogue ex_acked ex_me ex_nd (mkPoint 3 1 8) 0) = COk tt.
Proof. vm_compute. split; reflexivity. Qed.

(** * C79: false: only PointReleasePriority looks at the priority *)
Theorem c79_bad_priority_refused_refuted : exists prio g, prio = 17
  /\ PointWriteBool ex_acked ex_me ex_nd (mkPoint 3 4 prio) 1 = ([g], COk tt)
  /\ g = mkDgram [192; 168; 0; 7] 47808 (point_frame 300 4 (spec_write_request 7 (mkOid 4 3) 85 whole (VUint 1) 17)).
Proof. exists 17. eexists. split; [reflexivity|]. split; [|reflexivity]. vm_compute. reflexivity. Qed.
Print Assumptions c79_bad_priority_refused_refuted.
Theorem c79_release_refuses_partial : forall e me d p prio, ~ 1 <= prio <= 16 ->
  fst (PointReleasePriority e me d p prio) = [] /\ exists x, snd (PointReleasePriority e me d p prio) = CErr x.
Proof. exact release_refuses. Qed.
Print Assumptions c79_release_refuses_partial.
Example c79_ex : PointReleasePriority ex_acked ex_me ex_nd (Some (mkPoint 3 5 1)) 17 = ([], CErr CWrongType).
Proof. reflexivity. Qed.

(** * C80 *)
Theorem c80_release : forall e me d ip port net mac t i prio0 prio, opened d ip port net mac -> own me -> valid_oid (mkOid t i) ->
  (~ 1 <= prio <= 16 -> fst (PointReleasePriority e me d (Some (mkPoint i t prio0)) prio) = [] /\ exists x, snd (PointReleasePriority e me d (Some (mkPoint i t prio0)) prio) = CErr x)
  /\ (1 <= prio <= 16 ->
      (forall g, device_acks e ip port net mac (mkOid t i) 85 VNull prio g -> PointReleasePriority e me d (Some (mkPoint i t prio0)) prio = ([g], COk tt))
      /\ forall id, ev_id e = Some id -> is_byte id ->
         let g := mkDgram ip port (point_frame net mac (spec_write_request id (mkOid t i) 85 whole VNull prio)) in
         let r := PointReleasePriority e me d (Some (mkPoint i t prio0)) prio in fst r = [g] \/ fst r = [g; g]).
Proof. exact release_priority. Qed.
Print Assumptions c80_release.
Example c80_ex : PointReleasePriority ex_acked ex_me ex_nd (Some (mkPoint 3 5 1)) 8
    = ([mkDgram [192; 168; 0; 7] 47808 (point_frame 300 4 [0; 5; 7; 15; 12; 1; 64; 0; 3; 25; 85; 62; 0; 63; 73; 8])], COk tt)
  /\ PointReleasePriority ex_acked ex_me ex_nd (Some (mkPoint 3 5 1)) 17 = ([], CErr CWrongType).
Proof. vm_compute. split; reflexivity. Qed.

(** * C66: false: the entries are the receiver's pointer over and over, so all show
    the device announced last *)
Definition ex_found (id : Z) : found :=
  mkFound (mkOid 8 id) id (mkAddr 0 0 6 [192; 168; 0; id; 186; 192] []) 1476 3 15 0 0 (Some ([192; 168; 0; id], 47808)).
Theorem c66_distinct_devices_refuted : exists tr r, DeviceDiscover (fun _ => ex_dead) ex_me ex_nd (inr [ex_found 3; ex_found 9]) = (tr, COk r)
  /\ map nd_id (deref r) = [9; 9] /\ map nd_ip (deref r) = [txt "192.168.0.9"%string; txt "192.168.0.9"%string].
Proof. eexists. eexists. split; [vm_compute; reflexivity|]. split; reflexivity. Qed.
Print Assumptions c66_distinct_devices_refuted.
(** in general: as many entries as devices, all equal, with the data of the last one;
    names are read from the device the method was called on *)
Theorem c66_discover_exact_partial : forall envs me d ip port net mac fs rep, opened d ip port net mac -> own me -> Forall valid_found fs ->
  (forall j f, nth_error fs j = Some f -> detail_replies envs (4 * j) ip port net mac (oid_inst (f_id f)) rep) ->
  exists tr r x, DeviceDiscover envs me d (inr fs) = (tr, COk r) /\ deref r = repeat x (length fs)
  /\ Forall (fun g => exists id p, read_frame g ip port net mac (mkOid 8 id) p whole) tr
  /\ nd_port x = nd_port d
  /\ (forall fs0 f, fs = fs0 ++ [f] -> entry_of f x /\ nd_name x = text_of (rep (4 * length fs0)%nat) /\ nd_vendor x = text_of (rep (4 * length fs0 + 2)%nat)).
Proof. exact device_discover. Qed.
Print Assumptions c66_discover_exact_partial.
Example c66_ex : Forall valid_found [ex_found 3; ex_found 9] /\ detail_replies (fun _ => ex_dead) 4 [192; 168; 0; 7] 47808 300 4 9 (fun _ => None)
  /\ (exists tr r, DeviceDiscover (fun _ => ex_dead) ex_me ex_nd (inr [ex_found 3]) = (tr, COk r) /\ map nd_id (deref r) = [3] /\ map nd_maxapdu (deref r) = [1476]).
Proof.
  split; [repeat constructor; cbn; discriminate|]. split.
  - assert (R : device_fails ex_dead /\ forall id, ev_id ex_dead = Some id -> is_byte id) by (split; [exact ex_dead_fails|exact ex_dead_ids]).
    split; [exact R|]. split; [exact R|]. split; exact R.
  - eexists. eexists. split; [vm_compute; reflexivity|]. split; reflexivity.
Qed.

(** * C67: false for a list of one object *)
Theorem c67_one_object_refuted : exists os e, device_answers e [192; 168; 0; 7] 47808 300 4 (mkOid 8 5) 76 whole (oid_values os) /\ os = [mkOid 8 5]
  /\ match snd (DeviceObjects 0 (fun _ => e) ex_me ex_nd 5 None) with COk (l, _) => l = [] | _ => False end.
Proof.
  exists [mkOid 8 5], (ex_answer (mkOid 8 5) 76 [SVal (VOid (mkOid 8 5))]). split; [|split; [reflexivity|vm_compute; reflexivity]].
  apply ex_answers. constructor; [|constructor]. cbn. repeat split; discriminate.
Qed.
Print Assumptions c67_one_object_refuted.
(** and a crash when the list is read one by one and an element cannot be read *)
Theorem c67_missing_element_refuted : forall k envs me d ip port net mac id n, opened d ip port net mac -> own me -> 0 <= id <= 4194303 -> 1 <= n < 4294967295 ->
  device_reply (envs k) ip port net mac (mkOid 8 id) 76 whole None ->
  device_answers (envs (S k)) ip port net mac (mkOid 8 id) 76 0 [SVal (VUint n)] ->
  device_reply (envs (S (S k))) ip port net mac (mkOid 8 id) 76 1 None ->
  exists tr, DeviceObjects k envs me d id None = (tr, CPanic).
Proof. exact builder_panics. Qed.
Print Assumptions c67_missing_element_refuted.
Theorem c67_objects_exact_partial : forall k envs me d ip port net mac id os, opened d ip port net mac -> own me -> 0 <= id <= 4194303 ->
  device_answers (envs k) ip port net mac (mkOid 8 id) 76 whole (oid_values os) ->
  exists tr, DeviceObjects k envs me d id None = (tr, COk (if Nat.eqb (length os) 1 then [] else os, d)).
Proof. exact objects_whole. Qed.
Print Assumptions c67_objects_exact_partial.
Theorem c67_one_by_one_partial : forall k envs me d ip port net mac id os, opened d ip port net mac -> own me -> 0 <= id <= 4194303 -> zlen os < 4294967290 ->
  device_reply (envs k) ip port net mac (mkOid 8 id) 76 whole None ->
  device_answers (envs (S k)) ip port net mac (mkOid 8 id) 76 0 [SVal (VUint (zlen os))] ->
  element_replies envs (S (S k)) ip port net mac id os ->
  exists tr, DeviceObjects k envs me d id None = (tr, COk (os, d)).
Proof. exact objects_fallback. Qed.
Print Assumptions c67_one_by_one_partial.
Definition ex_indexed (idx : Z) (vs : list sent) : env := mkEnv (Some 7) (fun _ _ => mkAtt true (Some (PBytes (spec_read_ack 7 (mkOid 8 5) 76 idx vs)))).
Definition ex_one_by_one (k : nat) : env :=
  match k with
  | O => ex_dead
  | 1%nat => ex_indexed 0 [SVal (VUint 2)]
  | 2%nat => ex_indexed 1 [SVal (VOid (mkOid 8 5))]
  | _ => ex_indexed 2 [SVal (VOid (mkOid 0 1))]
  end.
Example c67_ex : snd (DeviceObjects 0 (fun _ => ex_answer (mkOid 8 5) 76 (oid_values [mkOid 8 5; mkOid 0 1; mkOid 4 2])) ex_me ex_nd 5 None) = COk ([mkOid 8 5; mkOid 0 1; mkOid 4 2], ex_nd)
  /\ snd (DeviceObjects 0 ex_one_by_one ex_me ex_nd 5 None) = COk ([mkOid 8 5; mkOid 0 1], ex_nd)
  /\ snd (DeviceObjects 0 (fun k => match k with 1%nat => ex_indexed 0 [SVal (VUint 2)] | _ => ex_dead end) ex_me ex_nd 5 None) = CPanic.
Proof. vm_compute. repeat split. Qed.

(** * C81: false: what a device announced about its APDU size and segmentation is
    overwritten by 0 when the reads after it fail *)
Theorem c81_announced_kept_refuted : exists f tr b, f_maxapdu f = 1476 /\ f_seg f = 3
  /\ NetworkDiscover (fun _ => ex_dead) ex_me (inr [f]) = (tr, COk [b]) /\ bd_maxapdu b = 0 /\ bd_seg b = 0.
Proof. exists (ex_found 3). eexists. eexists. split; [reflexivity|]. split; [reflexivity|]. split; [vm_compute; reflexivity|]. split; reflexivity. Qed.
Print Assumptions c81_announced_kept_refuted.
(** the list has one entry per announced device, with its identity and its own answers *)
Theorem c81_network_discover_exact_partial : forall envs me rep fs addrs, own me -> Forall2 (fun f a => good_found f (fst a) (snd a)) fs addrs ->
  (forall j f a, nth_error fs j = Some f -> nth_error addrs j = Some a ->
     detail_replies envs (4 * j) (fst a) (effective_port (snd a)) (f_netnum f) (f_macmstp f) (f_deviceid f) rep) ->
  exists tr bs, NetworkDiscover envs me (inr fs) = (tr, COk bs) /\ length bs = length fs
  /\ (forall j f a b, nth_error fs j = Some f -> nth_error addrs j = Some a -> nth_error bs j = Some b ->
      b = mkBD (f_id f) (f_deviceid f) (spec_dotted (fst a)) (snd a) (f_netnum f) (f_macmstp f)
            (number_of (rep (4 * j + 1)%nat)) (number_of (rep (4 * j + 3)%nat)) (f_vendor f) (f_addr f)
            (text_of (rep (4 * j)%nat)) (text_of (rep (4 * j + 2)%nat))).
Proof. exact network_discover. Qed.
Print Assumptions c81_network_discover_exact_partial.
Definition ex_detail (id : Z) (k : nat) : env :=
  match k with
  | 0%nat => ex_answer (mkOid 8 id) 77 [SVal (VString [68; 51])]
  | 1%nat => ex_answer (mkOid 8 id) 62 [SVal (VUint 480)]
  | 2%nat => ex_dead
  | _ => ex_answer (mkOid 8 id) 107 [SVal (VEnum 3)]
  end.
Example c81_ex : good_found (ex_found 3) [192; 168; 0; 3] 47808
  /\ (exists tr b, NetworkDiscover (ex_detail 3) ex_me (inr [ex_found 3]) = (tr, COk [b]) /\ bd_name b = [68; 51] /\ bd_maxapdu b = 480 /\ bd_seg b = 3 /\ bd_vendorname b = [])
  /\ detail_replies (ex_detail 3) 0 [192; 168; 0; 3] 47808 0 0 3
       (fun k => match k with 0%nat => Some [SVal (VString [68; 51])] | 1%nat => Some [SVal (VUint 480)] | 2%nat => None | _ => Some [SVal (VEnum 3)] end).
Proof.
  split; [repeat split; try discriminate; repeat constructor; discriminate|]. split.
  - eexists. eexists. split; [vm_compute; reflexivity|]. repeat split.
  - split; [apply ex_answers; repeat constructor; discriminate|]. split; [apply ex_answers; repeat constructor; discriminate|].
    split; [split; [exact ex_dead_fails|intros id E; discriminate E]|]. apply ex_answers; repeat constructor; discriminate.
Qed.

(** * C82: false: a device that answers nothing gives empty details and no error, and
    the supported services are never read *)
Theorem c82_details_refuted : GetDeviceDetails 0 (fun _ => ex_dead) ex_me ex_nd 5 = ([], COk (mkDetails [] 0 [] 0 None)).
Proof. vm_compute. reflexivity. Qed.
Print Assumptions c82_details_refuted.
Theorem c82_details_exact_partial : forall k envs me d ip port net mac id r0 r1 r2 r3, opened d ip port net mac -> own me -> 0 <= id <= 4194303 ->
  device_reply (envs k) ip port net mac (mkOid 8 id) 77 whole r0 -> device_reply (envs (S k)) ip port net mac (mkOid 8 id) 62 whole r1 ->
  device_reply (envs (S (S k))) ip port net mac (mkOid 8 id) 121 whole r2 -> device_reply (envs (S (S (S k)))) ip port net mac (mkOid 8 id) 107 whole r3 ->
  exists tr, GetDeviceDetails k envs me d id = (tr, COk (mkDetails (text_of r0) (number_of r1) (text_of r2) (number_of r3) None))
  /\ Forall (fun g => exists p, In p [77; 62; 121; 107] /\ read_frame g ip port net mac (mkOid 8 id) p whole) tr.
Proof. exact device_details. Qed.
Print Assumptions c82_details_exact_partial.
Example c82_ex : snd (GetDeviceDetails 0 (ex_detail 5) ex_me ex_nd 5) = COk (mkDetails [68; 51] 480 [] 3 None).
Proof. vm_compute. reflexivity. Qed.

(** * C83: one entry per object other than devices, with its own name and units *)
Theorem c83_device_points : forall envs penvs me d ip port net mac id w tr os d' name units, opened d ip port net mac -> own me ->
  DeviceObjects 0 envs me d id (Some w) = (tr, COk (os, d')) -> Forall valid_oid os ->
  (forall a o b, os = a ++ o :: b -> oid_type o <> 8 ->
     device_reply (penvs (calls_before a)) ip port net mac o 77 whole (name o)
     /\ (binary_type (oid_type o) = false -> device_reply (penvs (calls_before a + 1)%nat) ip port net mac o 117 whole (units o))) ->
  exists tr', GetDevicePoints envs penvs me d id w
    = (tr', COk (map (fun o => point_entry o (name o) (units o)) (filter (fun o => negb (oid_type o =? 8)) os))).
Proof. exact device_points_any. Qed.
Print Assumptions c83_device_points.
Theorem c83_listed_points : forall envs penvs me d ip port net mac id fs os name units, opened d ip port net mac -> own me -> 0 <= id <= 4194303 ->
  Forall valid_oid os -> length os <> 1%nat ->
  device_answers (envs 0%nat) ip port net mac (mkOid 8 id) 76 whole (oid_values os) ->
  (forall a o b, os = a ++ o :: b -> oid_type o <> 8 ->
     device_reply (penvs (calls_before a)) ip port net mac o 77 whole (name o)
     /\ (binary_type (oid_type o) = false -> device_reply (penvs (calls_before a + 1)%nat) ip port net mac o 117 whole (units o))) ->
  exists tr, GetDevicePoints envs penvs me d id (inr fs)
    = (tr, COk (map (fun o => point_entry o (name o) (units o)) (filter (fun o => negb (oid_type o =? 8)) os))).
Proof. exact device_points. Qed.
Print Assumptions c83_listed_points.
Example c83_ex : snd (GetDevicePoints (fun _ => ex_answer (mkOid 8 5) 76 (oid_values [mkOid 8 5; mkOid 0 1; mkOid 4 2]))
    (fun k => match k with 0%nat => ex_answer (mkOid 0 1) 77 [SVal (VString [65])] | 1%nat => ex_answer (mkOid 0 1) 117 [SVal (VEnum 62)] | _ => ex_answer (mkOid 4 2) 77 [SVal (VString [66])] end)
    ex_me ex_nd 5 (inr []))
  = COk [mkPD' [65] 62 (Some 62) 1 0 (txt "AnalogInput"%string); mkPD' [66] 0 None 2 4 (txt "BinaryOutput"%string)].
Proof. vm_compute. reflexivity. Qed.

(** * C84: false: the first request of the scan asks for all instances, the others for
    one each; a scan size of 0 crashes and one above 4194303 asks for nothing *)
Theorem c84_scan_batches_refuted : exists size rs r, 1 <= size /\ scan_ranges size = ROk rs /\ In r rs
  /\ requested_high (mkWho (fst r) (snd r) false 0) - requested_low (mkWho (fst r) (snd r) false 0) + 1 > size.
Proof. exists 1000000. eexists. exists (0, 0). split; [discriminate|]. split; [vm_compute; reflexivity|]. split; [left; reflexivity|reflexivity]. Qed.
Print Assumptions c84_scan_batches_refuted.
Theorem c84_scan_zero_refuted : scan_ranges 0 = RPanic.
Proof. exact scan_zero. Qed.
Print Assumptions c84_scan_zero_refuted.
Theorem c84_scan_large_refuted : forall size, 4194303 < size -> scan_ranges size = ROk [].
Proof. exact scan_large. Qed.
Print Assumptions c84_scan_large_refuted.
Theorem c84_scan_exact_partial : forall size rs, scan_ranges size = ROk rs -> forall k r, nth_error rs k = Some r ->
  r = (Z.of_nat k * size, Z.of_nat k * size).
Proof. exact scan_exact. Qed.
Print Assumptions c84_scan_exact_partial.
Theorem c84_scan_covers_partial : forall size n, 1 <= size <= 4194303 -> 0 <= n <= 4194303 ->
  exists rs r, scan_ranges size = ROk rs /\ In r rs /\ zlen rs = 4194303 / size
  /\ requested_low (mkWho (fst r) (snd r) false 0) <= n <= requested_high (mkWho (fst r) (snd r) false 0).
Proof. exact scan_covers. Qed.
Print Assumptions c84_scan_covers_partial.
Example c84_ex : scan_ranges 1000000 = ROk [(0, 0); (1000000, 1000000); (2000000, 2000000); (3000000, 3000000)].
Proof. reflexivity. Qed.

(** * C85: false: asked to close the logs too, it closes standard error and keeps the
    socket *)
Theorem c85_close_refuted : forall c, ClientClose c true = [ClosedStderr].
Proof. reflexivity. Qed.
Print Assumptions c85_close_refuted.
Theorem c85_close_exact_partial : forall c b, In ClosedSocket (ClientClose c b) <-> b = false /\ cl_link c <> None.
Proof. exact close_exact. Qed.
Print Assumptions c85_close_exact_partial.
Example c85_ex : exists l, NewClient (fun _ => None) (fun _ => true) (mkCB (txt "10.0.0.1/24"%string) [] 0 0 0) = ROk (mkClient (Some l) 1476, true)
  /\ ClientClose (mkClient (Some l) 1476) false = [ClosedSocket].
Proof. eexists. split; reflexivity. Qed.
