(** The command "multi" of the command line tool: C147. *)
From Coq Require Import String Lia.
From Verif Require Import ModelCmdMulti SpecCmdMulti SpecNet SpecWire SpecLayers SpecServices SpecObs SpecClient ProofsCmdMulti PropTypes PropNet.
Close Scope string_scope.
Import ListNotations.
Open Scope list_scope.
Open Scope Z_scope.

(** * C147: false in three ways.  The object list is read whole and then not used: a
    device whose list does not come in one answer makes the command exit before it asks
    for anything *)
Theorem c147_list_refuted : forall ifs listen fuel e1 e2 e3 f ip vs g, good_multi f ip -> starts ifs listen f -> device_says e1 f ip 62 vs g ->
  device_fails e2 -> (forall id, ev_id e2 = Some id -> is_byte id) ->
  exists gs x, readMulti ifs listen fuel e1 e2 e3 f = (g :: gs, CErr x) /\ (length gs <= 1)%nat.
Proof. exact multi_second. Qed.
Print Assumptions c147_list_refuted.
(** one output the device does not have, or one property it does not give: nothing is
    shown, not even what it gave before that *)
Theorem c147_missing_output_refuted : forall ifs listen fuel e1 e2 e3 f ip vs1 g1 vs2 g2 id xs o rs x rest,
  good_multi f ip -> starts ifs listen f -> device_says e1 f ip 62 vs1 g1 -> device_says e2 f ip 76 vs2 g2 -> ev_id e3 = Some id -> is_byte id ->
  multi_size f <= number_of (Some vs1) ->
  Forall access_ok xs -> valid_oid o -> Forall result_ok rs -> failure_ok x -> (length (spec_failing_ack id xs o rs x rest) <= fuel)%nat ->
  let g := multi_dgram f ip (spec_readmulti_request id multi_asked) in
  brought e3 0 g (spec_failing_ack id xs o rs x rest) -> brought e3 1 g (spec_failing_ack id xs o rs x rest) ->
  readMulti ifs listen fuel e1 e2 e3 f = ([g1; g2; g; g], COk (MFailed (CWrap (CDec (EBacnet (fl_class x) (fl_code x)))))).
Proof.
  intros ifs listen fuel e1 e2 e3 f ip vs1 g1 vs2 g2 id xs o rs x rest G S H1 H2 Hid Hb Hn.
  exact (proj2 (proj2 (proj2 (multi_ends G S H1 H2 Hid Hb))) Hn xs o rs x rest).
Qed.
Print Assumptions c147_missing_output_refuted.
(** no client, because the interface does not exist or the port is taken: a crash *)
Theorem c147_no_client_refuted : forall ifs listen fuel e1 e2 e3 f, mf_list f = false -> ~ starts ifs listen f ->
  readMulti ifs listen fuel e1 e2 e3 f = ([], CPanic).
Proof. exact multi_crashes. Qed.
Print Assumptions c147_no_client_refuted.

(** what the device answers is shown, after exactly three requests *)
Theorem c147_shows_partial : forall ifs listen fuel e1 e2 e3 f ip vs1 g1 vs2 g2 id xs,
  good_multi f ip -> starts ifs listen f -> device_says e1 f ip 62 vs1 g1 -> device_says e2 f ip 76 vs2 g2 -> ev_id e3 = Some id -> is_byte id ->
  multi_size f <= number_of (Some vs1) -> Forall access_ok xs -> (length (spec_readmulti_ack id xs) <= fuel)%nat ->
  let g := multi_dgram f ip (spec_readmulti_request id multi_asked) in
  brought e3 0 g (spec_readmulti_ack id xs) ->
  readMulti ifs listen fuel e1 e2 e3 f = ([g1; g2; g], COk (MShown (map shown_access xs))).
Proof.
  intros ifs listen fuel e1 e2 e3 f ip vs1 g1 vs2 g2 id xs G S H1 H2 Hid Hb Hn.
  exact (proj1 (proj2 (proj2 (multi_ends G S H1 H2 Hid Hb))) Hn xs).
Qed.
Print Assumptions c147_shows_partial.
(** a device that says it takes less than the request, or says nothing that is a number,
    is not sent it, and the user is told *)
Theorem c147_small_partial : forall ifs listen fuel e1 e2 e3 f ip vs1 g1 vs2 g2 id,
  good_multi f ip -> starts ifs listen f -> device_says e1 f ip 62 vs1 g1 -> device_says e2 f ip 76 vs2 g2 -> ev_id e3 = Some id -> is_byte id ->
  number_of (Some vs1) < multi_size f ->
  readMulti ifs listen fuel e1 e2 e3 f = ([g1; g2], COk (MFailed (if number_of (Some vs1) =? 0 then CZeroApdu else CTooLarge))).
Proof. exact multi_small. Qed.
Print Assumptions c147_small_partial.
(** a device that does not answer at all is asked once *)
Theorem c147_silent_partial : forall ifs listen fuel e1 e2 e3 f ip, good_multi f ip -> starts ifs listen f -> device_fails e1 -> (forall id, ev_id e1 = Some id -> is_byte id) ->
  exists gs x, readMulti ifs listen fuel e1 e2 e3 f = (gs, CErr x) /\ (length gs <= 1)%nat.
Proof. exact multi_first. Qed.
Print Assumptions c147_silent_partial.

Definition ex_mf : mflags := mkMF false (txt "eth0"%string) 47808 5 (txt "192.168.0.7"%string) 47808 300 4.
Definition ex_ifs (s : text) : option (list text) := if text_eqb s (txt "eth0"%string) then Some [txt "192.168.0.2/24"%string] else None.
Lemma ex_mgood : good_multi ex_mf [192; 168; 0; 7].
Proof. split; [reflexivity|]. split; [reflexivity|]. split; [exact ex_ip|]. unfold is_port, is_byte. cbn. lia. Qed.
Lemma ex_mstarts : starts ex_ifs (fun _ => true) ex_mf.
Proof. eexists. vm_compute. reflexivity. Qed.
Definition ex_read (p : Z) : datagram := multi_dgram ex_mf [192; 168; 0; 7] (spec_read_request 7 (mkOid 8 5) p whole).
Lemma ex_msays : forall p vs, Forall supported vs -> device_says (ex_answer (mkOid 8 5) p vs) ex_mf [192; 168; 0; 7] p vs (ex_read p).
Proof. intros p vs H. exists 7. split; [reflexivity|]. split; [split; discriminate || reflexivity|]. split; [exact H|]. repeat split. Qed.
Definition ex_replies (b : list Z) : env := mkEnv (Some 9) (fun _ _ => mkAtt true (Some (PBytes b))).
(** two outputs of a device: names "A", "B", values 20.0 and 21.5 *)
Definition ex_outputs : list (object_id * list result) :=
  [(mkOid 1 1, [mkResult 77 whole [SVal (VString [65])]]); (mkOid 1 1, [mkResult 85 whole [SVal (VReal 1101004800)]]);
   (mkOid 1 2, [mkResult 77 whole [SVal (VString [66])]]); (mkOid 1 2, [mkResult 85 whole [SVal (VReal 1101791232)]])].
Lemma ex_outputs_ok : Forall access_ok ex_outputs.
Proof. unfold ex_outputs, access_ok, result_ok, valid_oid, in_u32, whole. repeat constructor; cbn; try lia; try discriminate. Qed.
Definition ex_multi (list_answer third : env) : call mtold :=
  readMulti ex_ifs (fun _ => true) 300 (ex_answer (mkOid 8 5) 62 [SVal (VUint 480)]) list_answer third ex_mf.
(** the same device, with a list that comes and one that does not; and one without
    output 2 (error class object, code unknown-object) *)
Example c147_ex :
  ex_multi (ex_answer (mkOid 8 5) 76 [SVal (VOid (mkOid 8 5)); SVal (VOid (mkOid 1 1))]) (ex_replies (spec_readmulti_ack 9 ex_outputs))
    = ([ex_read 62; ex_read 76; multi_dgram ex_mf [192; 168; 0; 7] (spec_readmulti_request 9 multi_asked)], COk (MShown (map shown_access ex_outputs)))
  /\ ex_multi ex_dead (ex_replies (spec_readmulti_ack 9 ex_outputs)) = ([ex_read 62], CErr CNoId)
  /\ snd (ex_multi (ex_answer (mkOid 8 5) 76 [SVal (VOid (mkOid 8 5)); SVal (VOid (mkOid 1 1))])
            (ex_replies (spec_failing_ack 9 (firstn 2 ex_outputs) (mkOid 1 2) [] (mkFailure 77 whole 1 31) [])))
     = COk (MFailed (CWrap (CDec (EBacnet 1 31))))
  /\ readMulti ex_ifs (fun _ => false) 300 ex_dead ex_dead ex_dead ex_mf = ([], CPanic)
  /\ ~ starts ex_ifs (fun _ => false) ex_mf
  /\ multi_size ex_mf <= number_of (Some [SVal (VUint 480)]).
Proof.
  split; [vm_compute; reflexivity|]. split; [vm_compute; reflexivity|]. split; [vm_compute; reflexivity|]. split; [vm_compute; reflexivity|].
  split; [intros (c & H); vm_compute in H; discriminate|]. vm_compute. discriminate.
Qed.
