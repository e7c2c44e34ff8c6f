(** Helper types: object maps, addresses, ports, priority arrays, the services
    table and the data link (C58, C60-C64, C68, C69, C73). *)
From Coq Require Import String Permutation.
From Verif Require Import ModelNet SpecNet SpecWire SpecLayers SpecServices SpecObs SpecClient ProofsPort ProofsTypes ProofsNet.
Close Scope string_scope.
Import ListNotations.
Open Scope list_scope.
Open Scope Z_scope.

Definition ex_object : object := mkObj [65] [] (mkOid 6 1) [].
Definition ex_me : option address := Some (UDPToAddress [10; 0; 0; 9] 47808).
Lemma ex_own : own ex_me. Proof. exists [10; 0; 0; 9], 47808. split; reflexivity. Qed.
Lemma ex_ip : is_ip [192; 168; 0; 7].
Proof. split; [|reflexivity]. repeat constructor; discriminate. Qed.

(** * C58: false.  The texts of types without a name are read back as type 0
    (analog input), and reading into a nil map crashes. *)
Theorem c58_round_trip_refuted : exists om doc om', wf_map om /\ same_doc (marshal_map om) doc
  /\ unmarshal_map (Some []) doc = ROk (Some om') /\ obj_at om 6 1 = Some ex_object /\ obj_at om' 6 1 = None /\ obj_at om' 0 1 = Some ex_object.
Proof.
  exists [(6, [(1, ex_object)])], (marshal_map [(6, [(1, ex_object)])]), [(0, [(1, ex_object)])].
  split; [split; repeat constructor; intros []|]. split; [|split; [reflexivity|repeat split; reflexivity]].
  eexists. split; [apply Permutation_refl|]. repeat constructor.
Qed.
Print Assumptions c58_round_trip_refuted.
Theorem c58_nil_target_refuted : forall doc, doc <> [] -> unmarshal_map None doc = RPanic.
Proof. exact map_nil_target. Qed.
Print Assumptions c58_nil_target_refuted.
(** maps of named types only come back unchanged, whatever the order of the JSON members *)
Theorem c58_known_types_partial : forall om doc, wf_map om -> Forall (fun x => In (fst x) known_types) om -> same_doc (marshal_map om) doc ->
  exists om', unmarshal_map (Some []) doc = ROk (Some om') /\ wf_map om'
  /\ (forall t i, obj_at om' t i = obj_at om t i) /\ (forall t, In t (map fst om') <-> In t (map fst om)).
Proof. exact map_known. Qed.
Print Assumptions c58_known_types_partial.
(** and in general exactly the objects of unnamed types move to type 0 *)
Theorem c58_round_trip_exact_partial : forall om doc, wf_map om -> same_doc (marshal_map om) doc ->
  exists om', unmarshal_map (Some []) doc = ROk (Some om') /\ wf_map om'
  /\ (forall t i, t <> 0 -> In t known_types -> obj_at om' t i = obj_at om t i)
  /\ (forall t i, ~ In t known_types -> obj_at om' t i = None)
  /\ (forall i v, obj_at om' 0 i = Some v -> exists t, (t = 0 \/ ~ In t known_types) /\ obj_at om t i = Some v)
  /\ (forall t i, t = 0 \/ ~ In t known_types -> obj_at om t i <> None -> obj_at om' 0 i <> None)
  /\ (forall t, In t (map fst om') <-> exists t', In t' (map fst om) /\ t = if in_dec Z.eq_dec t' known_types then t' else 0).
Proof. exact map_round_trip. Qed.
Print Assumptions c58_round_trip_exact_partial.
Example c58_ex : let om := [(0, [(3, ex_object)]); (8, [(3, ex_object); (9, ex_object)])] in
  wf_map om /\ Forall (fun x => In (fst x) known_types) om
  /\ map fst (marshal_map om) = [txt "AnalogInput"%string; txt "Device"%string] /\ unmarshal_map (Some []) (rev (marshal_map om)) = ROk (Some (rev om)).
Proof.
  split; [split; repeat constructor; cbn; intuition discriminate|]. split; [repeat constructor; cbn; tauto|]. split; reflexivity.
Qed.

(** * C60: a created device is contacted where the caller said *)
Theorem c60_read_goes_there : forall e me b ip o p idx id, bd_ip b = spec_dotted ip -> is_ip ip -> is_port (bd_port b) -> 0 <= bd_net b < 65536 -> is_byte (bd_mac b) ->
  own me -> valid_oid o -> valid_property p -> in_u32 idx -> ev_id e = Some id -> is_byte id ->
  fst (ReadProperty e me (as_device (NewBDevice b)) (request o p idx))
  = [mkDgram ip (effective_port (bd_port b)) (point_frame (bd_net b) (bd_mac b) (spec_read_request id o p idx))].
Proof. exact created_read. Qed.
Print Assumptions c60_read_goes_there.
Theorem c60_write_goes_there : forall e me b ip o p v prio id, bd_ip b = spec_dotted ip -> is_ip ip -> is_port (bd_port b) -> 0 <= bd_net b < 65536 -> is_byte (bd_mac b) ->
  own me -> valid_oid o -> valid_property p -> is_byte prio -> writable v -> fits v -> written_standard v ->
  (binary_pv o p = true -> v = VNull \/ exists n, v = VUint n) -> ev_id e = Some id -> is_byte id ->
  let g := mkDgram ip (effective_port (bd_port b)) (point_frame (bd_net b) (bd_mac b) (spec_write_request id o p whole v prio)) in
  let tr := fst (WriteProperty e me (as_device (NewBDevice b)) (write_of o p whole v prio)) in tr = [g] \/ tr = [g; g].
Proof. exact created_write. Qed.
Print Assumptions c60_write_goes_there.
Example c60_ex : let b := mkBD (mkOid 0 0) 5 (txt "192.168.0.7"%string) 0 300 4 0 0 0 addr0 [] [] in
  bd_ip b = spec_dotted [192; 168; 0; 7] /\ effective_port (bd_port b) = 47808
  /\ point_frame 300 4 [1; 2] = [129; 10; 0; 13; 1; 36; 1; 44; 1; 4; 255; 1; 2]
  /\ fst (ReadProperty (mkEnv (Some 7) (fun _ _ => mkAtt false None)) ex_me (as_device (NewBDevice b)) (request (mkOid 0 1) 85 whole))
     = [mkDgram [192; 168; 0; 7] 47808 [129; 10; 0; 22; 1; 36; 1; 44; 1; 4; 255; 0; 5; 7; 12; 12; 0; 0; 0; 1; 25; 85]].
Proof. repeat split. Qed.

(** * C61 *)
Theorem c61_valid_port : forall p, ValidPort p = true <-> 0 <= p <= 65535.
Proof. exact valid_port. Qed.
Print Assumptions c61_valid_port.
Example c61_ex : map ValidPort [-1; 0; 7; 47808; 65535; 65536; 100000] = [false; true; true; true; true; false; false].
Proof. reflexivity. Qed.

(** * C62 *)
Theorem c62_highest_first : forall p v, HighestFloat32 p = Some v <-> exists a b, slots p = a ++ Some v :: b /\ Forall (fun s => s = None) a.
Proof. exact highest_some. Qed.
Print Assumptions c62_highest_first.
Theorem c62_highest_none : forall p, HighestFloat32 p = None <-> Forall (fun s => s = None) (slots p).
Proof. exact highest_none. Qed.
Print Assumptions c62_highest_none.
Example c62_ex : HighestFloat32 (mkPri None None (Some 5) None None None None (Some 0) None None None None None None None (Some 9)) = Some 5.
Proof. reflexivity. Qed.

(** * C63: false: one Real among the sixteen values and the caller crashes *)
Theorem c63_priority_array_refuted : forall e me d ip port net mac t i prio vs x, opened d ip port net mac -> own me -> valid_oid (mkOid t i) ->
  device_answers e ip port net mac (mkOid t i) 87 whole vs -> length vs <> 1%nat -> In (SVal (VReal x)) vs ->
  exists g, PointReadPriority e me d (mkPoint i t prio) = ([g], CPanic).
Proof. exact priority_crashes. Qed.
Print Assumptions c63_priority_array_refuted.
Definition ex_slots (v : sent) : list sent := repeat (SVal VNull) 7 ++ v :: repeat (SVal VNull) 8.
Definition ex_nd : ndevice := with_dev (mkND (txt "192.168.0.7"%string) 0 5 300 4 1476 0 (txt "d1"%string) [] [] (mkBD (mkOid 0 0) 0 [] 0 0 0 0 0 0 addr0 [] []))
  (NewBDevice (mkBD (mkOid 0 0) 5 (txt "192.168.0.7"%string) 0 300 4 1476 0 0 addr0 [] [])).
Lemma ex_opened : opened ex_nd [192; 168; 0; 7] 47808 300 4.
Proof. split; [exact ex_ip|]. repeat split; try discriminate. Qed.
(** a device that answers every read of call [e] with the same values *)
Definition ex_answer (o : object_id) (p : Z) (vs : list sent) : env := mkEnv (Some 7) (fun _ _ => mkAtt true (Some (PBytes (spec_read_ack 7 o p whole vs)))).
Lemma ex_answers : forall o p vs ip port net mac, Forall supported vs -> device_answers (ex_answer o p vs) ip port net mac o p whole vs.
Proof. intros o p vs ip port net mac H. exists 7. split; [reflexivity|]. split; [split; discriminate || reflexivity|]. split; [exact H|]. split; reflexivity. Qed.
Example c63_ex1 : snd (PointReadPriority (ex_answer (mkOid 1 3) 87 (ex_slots (SVal (VReal 1084227584)))) ex_me ex_nd (mkPoint 3 1 0)) = CPanic
  /\ device_answers (ex_answer (mkOid 1 3) 87 (ex_slots (SVal (VReal 1084227584)))) [192; 168; 0; 7] 47808 300 4 (mkOid 1 3) 87 whole (ex_slots (SVal (VReal 1084227584))).
Proof.
  split; [vm_compute; reflexivity|]. apply ex_answers. apply Forall_forall. intros v H. apply in_app_or in H.
  destruct H as [H|[<-|H]]; [apply repeat_spec in H; subst v; exact I|cbn; split; discriminate || reflexivity|apply repeat_spec in H; subst v; exact I].
Qed.
(** arrays of nulls and unsigned values come back, rounded to singles *)
Theorem c63_unsigned_arrays_partial : forall e me d ip port net mac t i prio vs, opened d ip port net mac -> own me -> valid_oid (mkOid t i) ->
  device_answers e ip port net mac (mkOid t i) 87 whole vs -> length vs = 16%nat -> Forall (fun v => v = SVal VNull \/ exists n, v = SVal (VUint n) /\ in_u32 n) vs ->
  exists g r, PointReadPriority e me d (mkPoint i t prio) = ([g], COk r) /\ Forall2 slot_holds (map shown vs) (slots r).
Proof. exact priority_plain. Qed.
Print Assumptions c63_unsigned_arrays_partial.
Example c63_ex2 : match snd (PointReadPriority (ex_answer (mkOid 14 3) 87 (ex_slots (SVal (VUint 5)))) ex_me ex_nd (mkPoint 3 14 0)) with
  | COk r => P8 r = Some 1084227584 /\ P1 r = None /\ HighestFloat32 r = Some 1084227584 | _ => False end
  /\ nearest_f32 5 1084227584.
Proof. split; [vm_compute; repeat split|]. vm_compute. repeat split; discriminate. Qed.

(** * C64 *)
Theorem c64_known_service : forall order s bit, Permutation supportedList order -> In (s, bit) standard_services ->
  exists x, svc_GetType order s = Some x /\ sv_name x = s /\ sv_number x = bit /\ svc_GetString x = s.
Proof. exact svc_known. Qed.
Print Assumptions c64_known_service.
Theorem c64_unknown_service : forall order s, Permutation supportedList order -> ~ In s (map fst standard_services) -> svc_GetType order s = None.
Proof. exact svc_unknown. Qed.
Print Assumptions c64_unknown_service.
Example c64_ex : svc_GetType supportedList (txt "whoIs"%string) = Some (mkSvc "whoIs" 34 31) /\ svc_GetType supportedList (txt "whois"%string) = None.
Proof. split; reflexivity. Qed.

(** * C73: false: the Index of an entry is its place in the table, not its bit *)
Theorem c73_index_refuted : exists s bit x, In (s, bit) standard_services /\ svc_GetType supportedList s = Some x /\ sv_index x <> bit.
Proof. exists (txt "writeProperty"%string), 15, (mkSvc "writeProperty" 15 14). split; [cbn; tauto|]. split; [reflexivity|discriminate]. Qed.
Print Assumptions c73_index_refuted.
Theorem c73_index_exact_partial : forall order s bit x, Permutation supportedList order -> In (s, bit) standard_services -> svc_GetType order s = Some x ->
  sv_index x = if bit <=? 12 then bit else if bit <=? 23 then bit - 1 else bit - 3.
Proof. exact svc_index. Qed.
Print Assumptions c73_index_exact_partial.
Example c73_ex : svc_GetType supportedList (txt "readProperty"%string) = Some (mkSvc "readProperty" 12 12).
Proof. reflexivity. Qed.

(** * C68: false: opened by address the subnet length and the port are exchanged *)
Theorem c68_client_from_ip_refuted : exists ifs ip port subnet maxpdu, is_ip ip /\ is_port port /\ 0 <= subnet <= 32
  /\ forall listen, NewClient ifs listen (mkCB [] (spec_dotted ip) port subnet maxpdu) = ROk (mkClient None MaxAPDU, false).
Proof.
  exists (fun _ => None), [192; 168; 0; 7], 47808, 24, 0. split; [exact ex_ip|]. split; [split; discriminate || reflexivity|]. split; [split; discriminate|].
  intro listen. reflexivity.
Qed.
Print Assumptions c68_client_from_ip_refuted.
Theorem c68_client_from_ip_exact_partial : forall ifs listen ip subnet port maxpdu, is_ip ip -> 0 <= subnet <= 32 -> is_port port ->
  let cb := mkCB [] (spec_dotted ip) port subnet maxpdu in
  let p := effective_port port in
  (32 < p -> NewClient ifs listen cb = ROk (mkClient None (if maxpdu =? 0 then MaxAPDU else maxpdu), false))
  /\ (p <= 32 -> listen (Some (effective_port subnet)) = true ->
      exists l bc, NewClient ifs listen cb = ROk (mkClient (Some l) (if maxpdu =? 0 then MaxAPDU else maxpdu), true)
      /\ lk_port l = Some (effective_port subnet) /\ addr_UDPAddr (lk_my l) = Some (ip, effective_port subnet)
      /\ addr_UDPAddr (lk_bcast l) = Some (bc, 47808) /\ subnet_bcast ip p bc).
Proof. exact client_from_ip. Qed.
Print Assumptions c68_client_from_ip_exact_partial.
Theorem c68_client_from_interface_partial : forall ifs listen ip n port ipfield subnet maxpdu, is_ip ip -> 0 <= n <= 32 -> is_port port ->
  let cb := mkCB (spec_dotted ip ++ 47 :: dec_octet n) ipfield port subnet maxpdu in
  (listen (Some (effective_port port)) = true ->
   exists l bc, NewClient ifs listen cb = ROk (mkClient (Some l) (if maxpdu =? 0 then MaxAPDU else maxpdu), true)
   /\ lk_port l = Some (effective_port port) /\ addr_UDPAddr (lk_my l) = Some (ip, effective_port port)
   /\ addr_UDPAddr (lk_bcast l) = Some (bc, 47808) /\ subnet_bcast ip n bc)
  /\ (listen (Some (effective_port port)) = false ->
      NewClient ifs listen cb = ROk (mkClient None (if maxpdu =? 0 then MaxAPDU else maxpdu), false)).
Proof. exact client_from_interface. Qed.
Print Assumptions c68_client_from_interface_partial.
Example c68_ex : exists l, NewClient (fun _ => None) (fun _ => true) (mkCB [] (txt "192.168.0.7"%string) 24 30 0) = ROk (mkClient (Some l) MaxAPDU, true)
  /\ lk_port l = Some 30 /\ addr_UDPAddr (lk_bcast l) = Some ([192; 168; 0; 255], 47808).
Proof. eexists. repeat split. Qed.

(** * C69 *)
Theorem c69_subnet_broadcast : forall listen ip n port, is_ip ip -> 0 <= n <= 32 -> is_port port -> listen (Some (effective_port port)) = true ->
  exists l bc, dataLink listen (spec_dotted ip ++ 47 :: dec_octet n) port = ROk (Some l)
  /\ lk_port l = Some (effective_port port)
  /\ addr_UDPAddr (lk_my l) = Some (ip, effective_port port)
  /\ addr_UDPAddr (lk_bcast l) = Some (bc, 47808) /\ subnet_bcast ip n bc.
Proof. exact dataLink_cidr. Qed.
Print Assumptions c69_subnet_broadcast.
Theorem c69_port_in_use : forall listen ip n port, is_ip ip -> 0 <= n <= 32 -> is_port port -> listen (Some (effective_port port)) = false ->
  dataLink listen (spec_dotted ip ++ 47 :: dec_octet n) port = ROk None.
Proof. exact dataLink_busy. Qed.
Print Assumptions c69_port_in_use.
Example c69_ex : spec_dotted [192; 168; 9; 7] ++ 47 :: dec_octet 22 = txt "192.168.9.7/22"%string
  /\ (exists l, dataLink (fun _ => true) (txt "192.168.9.7/22"%string) 0 = ROk (Some l) /\ addr_UDPAddr (lk_bcast l) = Some ([192; 168; 11; 255], 47808)).
Proof. split; [reflexivity|]. eexists. split; reflexivity. Qed.
