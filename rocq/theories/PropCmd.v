(** The property names and the command line tool: C101-C105. *)
From Coq Require Import String Lia.
From Verif Require Import ModelCmd SpecCmd SpecNet SpecWire SpecLayers SpecServices SpecObs SpecClient ProofsNet ProofsCmd PropTypes PropNet.
Close Scope string_scope.
Import ListNotations.
Open Scope list_scope.
Open Scope Z_scope.

(** * C101: names of properties *)
Theorem c101_names : forall s, (forall p, prop_Get s = (p, true) <-> In (s, p) standard_properties)
  /\ (prop_Get s = (0, false) <-> forall p, ~ In (s, p) standard_properties).
Proof. exact get_spec. Qed.
Print Assumptions c101_names.
Theorem c101_listed : forall s p, In (s, p) prop_Keys <-> In (s, p) standard_properties.
Proof. exact keys_spec. Qed.
Print Assumptions c101_listed.
Theorem c101_one_to_one : NoDup (map fst standard_properties) /\ NoDup (map snd standard_properties).
Proof. exact names_distinct. Qed.
Print Assumptions c101_one_to_one.
Theorem c101_shown : forall p, prop_String p = txt "Unknown"%string <-> ~ exists s, In (s, p) standard_properties.
Proof. exact string_spec. Qed.
Print Assumptions c101_shown.
Example c101_ex : prop_Get (txt "PresentValue"%string) = (85, true) /\ prop_Get (txt "presentvalue"%string) = (0, false)
  /\ prop_String 85 = txt "Present Value (85)"%string /\ prop_String 86 = txt "Unknown"%string.
Proof. vm_compute. repeat split. Qed.

(** * C102: false: a text that is no number is written as whatever the failed
    conversion returned, which is 0 *)
Definition ex_conv : conv := mkConv (fun s => if text_eqb s (txt "20"%string) then (1101004800, true) else (0, false)) (fun _ => (0, false)) (fun x => if x =? 1101004800 then 20 else 0).
Lemma ex_conv_good : good_conv ex_conv.
Proof.
  intros s x. cbn [cv_f32 cv_f64 cv_u32 ex_conv]. destruct (text_eqb s _); destruct (x =? 1101004800); cbn [fst]; unfold in_u32; repeat split; discriminate || reflexivity.
Qed.
Definition ex_flags (prop value : text) (null : bool) (t : Z) : cflags :=
  mkFlags false (txt "192.168.0.7"%string) 47808 0 0 3 t prop whole 8 null value.
Lemma ex_good : forall prop value null t p, selects prop p -> 0 <= t < 1024 -> valid_property p -> good_flags (ex_flags prop value null t) [192; 168; 0; 7] p.
Proof.
  intros prop value null t p H Ht Hp. unfold good_flags, ex_flags. cbn [cf_list cf_ip cf_port cf_net cf_mac cf_type cf_inst cf_index cf_prio cf_prop].
  split; [reflexivity|]. split; [reflexivity|]. split; [exact ex_ip|]. unfold is_port, is_byte, in_u32, valid_oid, whole. cbn [oid_type oid_inst].
  split; [lia|]. split; [lia|]. split; [lia|]. split; [lia|]. split; [exact Hp|]. split; [lia|]. split; [lia|exact H].
Qed.
Lemma ex_pv : selects (txt "PresentValue"%string) 85. Proof. right. vm_compute. tauto. Qed.
Theorem c102_unparsable_written_refuted : forall cv, cv_f32 cv (txt "off"%string) = (0, false) ->
  exists e1 e2 me f ip, good_flags f ip 85 /\ device_answers e1 ip 47808 0 0 (mkOid 1 3) 85 whole [SVal (VReal 1101004800)]
  /\ cf_value f = txt "off"%string
  /\ writeProp e1 e2 me cv f = ([cmd_read 7 f ip 85; cmd_write 7 f ip 85 (VReal 0)], COk TWritten)
  /\ g_bytes (cmd_write 7 f ip 85 (VReal 0)) = local_frame (spec_write_request 7 (mkOid 1 3) 85 whole (VReal 0) 8).
Proof.
  intros cv H. exists (ex_answer (mkOid 1 3) 85 [SVal (VReal 1101004800)]), ex_acked, ex_me, (ex_flags (txt "PresentValue"%string) (txt "off"%string) false 1), [192; 168; 0; 7].
  split; [apply ex_good; [exact ex_pv|split; discriminate || reflexivity|split; discriminate]|].
  split; [apply ex_answers; repeat constructor; discriminate|]. split; [reflexivity|]. split; [|vm_compute; reflexivity].
  unfold writeProp. cbn [cf_list cf_null ex_flags]. set (r := ReadProperty _ _ _ _). vm_compute in r. subst r. unfold nbind, first_value, ex_flags. cbn [pd_object o_props pr_data cf_value].
  change (txt "off"%string) with [111; 102; 102] in *. unfold value_flag. rewrite H. vm_compute. reflexivity.
Qed.
Print Assumptions c102_unparsable_written_refuted.
(** what is written against an answering device, understood or not *)
Theorem c102_written_exact_partial : forall e1 e2 me cv f ip p vs v ok id2, good_flags f ip p -> own me -> good_conv cv -> cf_null f = false -> cf_value f <> [] ->
  is_bytes (cf_value f) -> zlen (cf_value f) <= 60000 ->
  device_answers e1 ip (cf_port f) (cf_net f) (cf_mac f) (asked_object f p) p (cf_index f) vs ->
  converted cv vs (cf_value f) = Some (v, ok) -> (binary_pv (asked_object f p) p = true -> exists n, v = VUint n) ->
  ev_id e2 = Some id2 -> is_byte id2 ->
  exists id1, ev_id e1 = Some id1
  /\ let r := cmd_read id1 f ip p in let w := cmd_write id2 f ip p v in
     (fst (writeProp e1 e2 me cv f) = [r; w] \/ fst (writeProp e1 e2 me cv f) = [r; w; w])
     /\ (at_sent (ev_att e2 0 w) = true -> at_reply (ev_att e2 0 w) = Some (PBytes (spec_simple_ack id2 15)) -> writeProp e1 e2 me cv f = ([r; w], COk TWritten)).
Proof. exact cmd_written. Qed.
Print Assumptions c102_written_exact_partial.
(** values of other datatypes are not written; for the present value of a binary
    output or value the command crashes *)
Theorem c102_other_types_exact_partial : forall e1 e2 me cv f ip p vs id2, good_flags f ip p -> own me -> cf_null f = false -> cf_value f <> [] ->
  device_answers e1 ip (cf_port f) (cf_net f) (cf_mac f) (asked_object f p) p (cf_index f) vs ->
  converted cv vs (cf_value f) = None -> ev_id e2 = Some id2 ->
  exists id1, ev_id e1 = Some id1
  /\ writeProp e1 e2 me cv f = ([cmd_read id1 f ip p], if binary_pv (asked_object f p) p then CPanic else COk (TFailed (CEnc EUnknownType))).
Proof. exact cmd_nothing. Qed.
Print Assumptions c102_other_types_exact_partial.
(** nothing is written without an answer or without a value *)
Theorem c102_no_answer_partial : forall e1 e2 me cv f ip p, good_flags f ip p -> own me -> cf_null f = false -> device_fails e1 -> (forall id, ev_id e1 = Some id -> is_byte id) ->
  exists x, snd (writeProp e1 e2 me cv f) = CErr x
  /\ forall g, In g (fst (writeProp e1 e2 me cv f)) -> exists id, ev_id e1 = Some id /\ g = cmd_read id f ip p.
Proof. exact cmd_no_answer. Qed.
Print Assumptions c102_no_answer_partial.
Theorem c102_no_value_partial : forall e1 e2 me cv f ip p vs, good_flags f ip p -> own me -> cf_null f = false -> cf_value f = [] ->
  device_answers e1 ip (cf_port f) (cf_net f) (cf_mac f) (asked_object f p) p (cf_index f) vs ->
  exists id, ev_id e1 = Some id /\ writeProp e1 e2 me cv f = ([cmd_read id f ip p], CErr CNoData).
Proof. exact cmd_no_value. Qed.
Print Assumptions c102_no_value_partial.
Definition ex_cmd (vs : list sent) (s : text) : call told :=
  writeProp (ex_answer (mkOid 2 3) 85 vs) ex_acked ex_me ex_conv (ex_flags (txt "85"%string) s false 2).
Example c102_ex : snd (ex_cmd [SVal (VReal 0)] (txt "20"%string)) = COk TWritten
  /\ map g_bytes (fst (ex_cmd [SVal (VReal 0)] (txt "20"%string)))
     = map local_frame [spec_read_request 7 (mkOid 2 3) 85 whole; spec_write_request 7 (mkOid 2 3) 85 whole (VReal 1101004800) 8]
  /\ map g_bytes (fst (ex_cmd [SVal (VUint 5)] (txt "20"%string)))
     = map local_frame [spec_read_request 7 (mkOid 2 3) 85 whole; spec_write_request 7 (mkOid 2 3) 85 whole (VUint 20) 8]
  /\ snd (ex_cmd [SVal (VInt 5)] (txt "20"%string)) = COk (TFailed (CEnc EUnknownType)) /\ length (fst (ex_cmd [SVal (VInt 5)] (txt "20"%string))) = 1%nat
  /\ snd (ex_cmd [SVal (VReal 0)] []) = CErr CNoData.
Proof. vm_compute. repeat split. Qed.

(** * C103: false: an enumerated property, here the units, is overwritten with an
    unsigned number *)
Theorem c103_datatype_refuted : exists e1 e2 me cv f ip, good_flags f ip 117
  /\ device_answers e1 ip 47808 0 0 (mkOid 2 3) 117 whole [SVal (VEnum 62)]
  /\ writeProp e1 e2 me cv f = ([cmd_read 7 f ip 117; cmd_write 7 f ip 117 (VUint 20)], COk TWritten)
  /\ g_bytes (cmd_write 7 f ip 117 (VUint 20)) = local_frame (spec_write_request 7 (mkOid 2 3) 117 whole (VUint 20) 8)
  /\ wire_type (spec_app (VEnum 62)) = 9 /\ wire_type (spec_app (VUint 20)) = 2.
Proof.
  exists (ex_answer (mkOid 2 3) 117 [SVal (VEnum 62)]), ex_acked, ex_me, ex_conv, (ex_flags (txt "Units"%string) (txt "20"%string) false 2), [192; 168; 0; 7].
  split; [apply ex_good; [right; vm_compute; tauto|split; discriminate || reflexivity|split; discriminate]|].
  split; [apply ex_answers; repeat constructor; discriminate|]. vm_compute. repeat split.
Qed.
Print Assumptions c103_datatype_refuted.
(** what is written in place of a number or a text has its datatype except for these:
    an enumeration, and a number in the present value of a binary point *)
Theorem c103_datatype_exact_partial : forall e1 e2 me cv f ip p v id2, good_flags f ip p -> own me -> good_conv cv -> cf_null f = false -> cf_value f <> [] ->
  is_bytes (cf_value f) -> zlen (cf_value f) <= 60000 -> number_or_text v -> (binary_pv (asked_object f p) p = true -> exists n, v = VUint n \/ v = VEnum n) ->
  device_answers e1 ip (cf_port f) (cf_net f) (cf_mac f) (asked_object f p) p (cf_index f) [SVal v] ->
  ev_id e2 = Some id2 -> is_byte id2 ->
  exists id1 v', let r := cmd_read id1 f ip p in let w := cmd_write id2 f ip p v' in
    (fst (writeProp e1 e2 me cv f) = [r; w] \/ fst (writeProp e1 e2 me cv f) = [r; w; w])
    /\ (wire_type (lib_value (binary_pv (asked_object f p) p) v') = wire_type (spec_app v)
        <-> match v with VEnum _ => binary_pv (asked_object f p) p = true | VUint _ => binary_pv (asked_object f p) p = false | _ => True end).
Proof. exact cmd_keeps_type. Qed.
Print Assumptions c103_datatype_exact_partial.
Example c103_ex : converted ex_conv [SVal (VEnum 0)] (txt "20"%string) = Some (VUint 20, true)
  /\ (exists f, binary_pv (asked_object f 85) 85 = true /\ lib_value true (VUint 20) = spec_app (VEnum 20)).
Proof. split; [reflexivity|]. exists (ex_flags [] [] false 5). split; reflexivity. Qed.

(** * C104: false: a misspelt property name becomes property 0 (acked-transitions) *)
Theorem c104_property_refuted : exists e1 e2 me cv f, unknown_name (cf_prop f) /\ cf_prop f = txt "PresentVaule"%string
  /\ exists ip, writeProp e1 e2 me cv f = ([mkDgram ip 47808 (local_frame (spec_write_request 7 (mkOid 1 3) 0 whole VNull 8))], COk TWritten).
Proof.
  exists ex_dead, ex_acked, ex_me, ex_conv, (ex_flags (txt "PresentVaule"%string) [] true 1). split; [|split; [reflexivity|]].
  - split; [|exists 80; split; [vm_compute; tauto|split; [lia|split; discriminate]]]. intros p H. vm_compute in H.
    repeat (destruct H as [H|H]; [discriminate H|]). exact H.
  - exists [192; 168; 0; 7]. vm_compute. reflexivity.
Qed.
Print Assumptions c104_property_refuted.
Theorem c104_unknown_exact_partial : forall e1 e2 me cv f, unknown_name (cf_prop f) ->
  writeProp e1 e2 me cv f = writeProp e1 e2 me cv (mkFlags (cf_list f) (cf_ip f) (cf_port f) (cf_net f) (cf_mac f) (cf_inst f) (cf_type f) [48] (cf_index f) (cf_prio f) (cf_null f) (cf_value f)).
Proof. exact cmd_unknown. Qed.
Print Assumptions c104_unknown_exact_partial.
(** a known name or a number is the property read and written, of the object selected *)
Theorem c104_release_partial : forall e1 e2 me cv f ip p id, good_flags f ip p -> own me -> cf_null f = true -> ev_id e2 = Some id -> is_byte id ->
  let w := cmd_write id f ip p VNull in
  (fst (writeProp e1 e2 me cv f) = [w] \/ fst (writeProp e1 e2 me cv f) = [w; w])
  /\ (at_sent (ev_att e2 0 w) = true -> at_reply (ev_att e2 0 w) = Some (PBytes (spec_simple_ack id 15)) -> writeProp e1 e2 me cv f = ([w], COk TWritten)).
Proof. exact cmd_null. Qed.
Print Assumptions c104_release_partial.
Theorem c104_frames_partial : forall id f ip p v, writable v -> written_standard v -> (binary_pv (asked_object f p) p = true -> v = VNull \/ exists n, v = VUint n) ->
  g_bytes (cmd_write id f ip p v) = point_frame (cf_net f) (cf_mac f) (spec_write_request id (asked_object f p) p (cf_index f) v (cf_prio f)).
Proof. exact cmd_write_standard. Qed.
Print Assumptions c104_frames_partial.
Example c104_ex : good_flags (ex_flags (txt "PresentValue"%string) [] true 1) [192; 168; 0; 7] 85 /\ good_flags (ex_flags [56; 53] [] true 1) [192; 168; 0; 7] 85
  /\ good_flags (ex_flags (txt "ObjectList"%string) [] true 1) [192; 168; 0; 7] 76 /\ asked_object (ex_flags (txt "ObjectList"%string) [] true 1) 76 = mkOid 8 3.
Proof.
  split; [apply ex_good; [exact ex_pv|split; discriminate || reflexivity|split; discriminate]|].
  split; [apply ex_good; [left; apply (num_more [56] 8 5 (num_one 8 ltac:(split; discriminate)) ltac:(split; discriminate))|split; discriminate || reflexivity|split; discriminate]|].
  split; [apply ex_good; [right; vm_compute; tauto|split; discriminate || reflexivity|split; discriminate]|reflexivity].
Qed.

(** * C105: false: the read and whois commands crash before they send anything *)
Theorem c105_read_command_refuted : forall e me d f, readProp e me d f = ([], CPanic).
Proof. exact read_crashes. Qed.
Print Assumptions c105_read_command_refuted.
Theorem c105_network_commands_refuted : forall A (k : network -> call A), with_network k = ([], CPanic).
Proof. exact network_crashes. Qed.
Print Assumptions c105_network_commands_refuted.
(** with a store, the read command would still crash on any value but a bit string, and on some
    of those (C152) *)
Theorem c105_read_end_exact_partial : forall out, read_end out = ([], COk tt) <-> exists b l, first_value out = Some (VBits (Some b)) /\ bs_GetValue b = ROk l.
Proof. exact read_end_spec. Qed.
Print Assumptions c105_read_end_exact_partial.
Example c105_ex : read_end (answer (mkOid 8 1) 97 whole (VBits (Some (mkBits 1 [1])))) = ([], COk tt)
  /\ read_end (answer (mkOid 8 1) 77 whole (VString [65])) = ([], CPanic) /\ read_end (answer (mkOid 8 1) 97 whole (VBits (Some (mkBits 253 [])))) = ([], CPanic).
Proof. repeat split; reflexivity. Qed.
