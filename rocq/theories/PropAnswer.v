(** C150: only the answer to a request counts as its answer. *)
From Verif Require Import ModelClient ModelNet SpecWire SpecCodec SpecLayers SpecServices SpecObs SpecClient SpecNet SpecAnswer ProofsAnswer PropTypes PropClient.
Open Scope Z_scope.

(** Whatever was asked for, the value of any other object and property is taken, from an
    answer to any service, whole or in segments. *)
Theorem c150_any_answer_exact_partial : forall e me dev ip port o p idx o' p' idx' vs id t svc inv, ev_id e = Some id -> is_byte id -> routable dev ip port -> addr_ok (addr_SetLength (dv_addr dev)) -> opt_addr_ok me ->
  valid_oid o -> valid_property p -> in_u32 idx -> valid_oid o' -> in_u32 p' -> in_u32 idx' -> Forall supported vs -> ack_head t ->
  let dest := addr_SetLength (dv_addr dev) in
  let g := mkDgram ip port (spec_bvlc (send_func dest None) (spec_npdu (request_npdu dest me) ++ spec_read_request id o p idx)) in
  at_sent (ev_att e 0 g) = true ->
  at_reply (ev_att e 0 g) = Some (PBytes (t :: inv :: svc :: spec_reference o' p' idx' ++ spec_open 3 ++ flat_map spec_sent vs ++ spec_close 3)) ->
  ReadProperty e me dev (request o p idx) = ([g], COk (answer o' p' idx' (one_or_list (map shown vs)))).
Proof. exact any_answer. Qed.
Print Assumptions c150_any_answer_exact_partial.

(** The type of an acknowledgement, its segmentation, its invoke id and its service make no
    difference to any of the four calls. *)
Theorem c150_head_ignored_partial : forall e e' me dev fuel rp wp mrp mwp, alike e e' ->
  ReadProperty e me dev rp = ReadProperty e' me dev rp /\ WriteProperty e me dev wp = WriteProperty e' me dev wp /\
  ReadMultiProperty fuel e me dev mrp = ReadMultiProperty fuel e' me dev mrp /\ WriteMultiProperty e me dev mwp = WriteMultiProperty e' me dev mwp.
Proof. exact heads_ignored. Qed.
Print Assumptions c150_head_ignored_partial.

(** Segments are refused when their window size is not in 8..15 … *)
Theorem c150_segments_partial : forall e me dev rp mrp fuel out objs, only_segments e ->
  snd (ReadProperty e me dev rp) <> COk out /\ snd (ReadMultiProperty fuel e me dev mrp) <> COk objs.
Proof. exact segments_refused. Qed.
Print Assumptions c150_segments_partial.

(** … and in any case the object, property and index that are returned with the value are
    those of the answer, so that who looks at them can tell. *)
Theorem c150_says_which_partial : forall e me dev rp tr out, ReadProperty e me dev rp = (tr, COk out) ->
  exists x, answered_with e x /\ forall t inv svc o p idx rest, ack_head t -> valid_oid o -> in_u32 p -> in_u32 idx ->
    x = t :: inv :: svc :: spec_reference o p idx ++ spec_open 3 ++ rest -> exists v, out = answer o p idx v.
Proof. exact says_which. Qed.
Print Assumptions c150_says_which_partial.

(** The claim: a read gives a value only if the device sent one in an unsegmented answer
    about the object and property asked for.  It does not hold: the value of analog
    input 4 is returned for analog input 3 … *)
Definition ax_other : list Z := spec_read_ack 7 (mkOid 0 4) 85 whole [SVal (VReal 1117192192)].
Definition ax_env (x : list Z) : env := mkEnv (Some 7) (fun _ _ => mkAtt true (Some (PBytes x))).
Lemma ax_from : forall x, is_bytes (spec_bvlc 10 (spec_npdu ex_npdu ++ x)) -> In (EDeliver 7 (PBytes x)) (fst (handleMsg (fun _ => true) ex_src (spec_bvlc 10 (spec_npdu ex_npdu ++ x)))) -> replies_from_network (ax_env x) 7.
Proof. intros x B H k g p E. injection E as <-. exists (fun _ => true), ex_src, (spec_bvlc 10 (spec_npdu ex_npdu ++ x)). split; assumption. Qed.
Theorem c150_other_object_refuted : exists e o o' p v, ev_id e = Some 7 /\ replies_from_network e 7 /\ o <> o' /\
  (forall k g q, at_reply (ev_att e k g) = Some q -> q = PBytes (spec_read_ack 7 o' p whole [SVal v])) /\
  snd (ReadProperty e None ex_dev (request o p whole)) = COk (answer o' p whole v).
Proof.
  exists (ax_env ax_other), (mkOid 0 3), (mkOid 0 4), 85, (VReal 1117192192). split; [reflexivity|]. split; [apply ax_from; [repeat constructor; discriminate|left; reflexivity]|]. split; [discriminate|].
  split; [intros k g q E; injection E as <-; reflexivity|vm_compute; reflexivity].
Qed.
Print Assumptions c150_other_object_refuted.
(** … PointReadFloat32, which does not return the object, gives the value of point 4 for
    point 3 without an error … *)
Theorem c150_point_refuted : exists e v, device_answers e [192; 168; 0; 7] 47808 300 4 (mkOid 2 4) 85 whole [SVal (VReal v)] /\
  snd (PointReadFloat32 e ex_me ex_nd (mkPoint 3 2 0)) = COk v.
Proof.
  exists (ex_answer (mkOid 2 4) 85 [SVal (VReal 1101529088)]), 1101529088. split; [|vm_compute; reflexivity].
  apply ex_answers. constructor; [cbn; split; discriminate || reflexivity|constructor].
Qed.
Print Assumptions c150_point_refuted.
(** … and the first segment of the object list of device 6485 reads as a property of
    some other object that has no value. *)
Definition ax_segment : list Z := spec_segment true 7 0 8 12 (spec_reference (mkOid 8 6485) 76 whole ++ spec_open 3 ++ spec_sent (SVal (VOid (mkOid 0 1)))).
Theorem c150_segment_refuted : exists e o p rest o' p', ev_id e = Some 7 /\ replies_from_network e 7 /\ o <> o' /\ p <> p' /\
  (forall k g q, at_reply (ev_att e k g) = Some q -> q = PBytes (spec_segment true 7 0 8 12 (spec_reference o p whole ++ spec_open 3 ++ rest))) /\
  snd (ReadProperty e None ex_dev (request o p whole)) = COk (answer o' p' whole VNil).
Proof.
  exists (ax_env ax_segment), (mkOid 8 6485), 76, (spec_sent (SVal (VOid (mkOid 0 1)))), (mkOid 48 786944), 85. split; [reflexivity|]. split; [apply ax_from; [repeat constructor; discriminate|left; reflexivity]|].
  split; [discriminate|]. split; [discriminate|]. split; [intros k g q E; injection E as <-; reflexivity|vm_compute; reflexivity].
Qed.
Print Assumptions c150_segment_refuted.

(** the hypotheses above are met *)
Example c150_ex_any : let x := 60 :: 9 :: 26 :: spec_reference (mkOid 2 8) 77 whole ++ spec_open 3 ++ flat_map spec_sent [SVal (VString [72; 105])] ++ spec_close 3 in
  routable ex_dev [10; 0; 0; 1] 47808 /\ ack_head 60 /\ snd (ReadProperty (ax_env x) None ex_dev (request (mkOid 0 3) 85 whole)) = COk (answer (mkOid 2 8) 77 whole (VString [72; 105])).
Proof. cbv zeta. split; [reflexivity|]. split; [split; [discriminate|reflexivity]|vm_compute; reflexivity]. Qed.
Example c150_ex_head : alike (ax_env ax_other) (ax_env (32 :: 9 :: 26 :: skipn 3 ax_other)).
Proof. split; [reflexivity|]. intros k g. split; [reflexivity|]. constructor. constructor; split; discriminate || reflexivity. Qed.
Example c150_ex_segments : only_segments (ax_env (spec_segment true 7 0 4 12 (spec_reference (mkOid 8 6485) 76 whole)))
  /\ snd (ReadProperty (ax_env (spec_segment true 7 0 4 12 (spec_reference (mkOid 8 6485) 76 whole))) None ex_dev (request (mkOid 8 6485) 76 whole)) = CErr (CDec (ENotContext 0)).
Proof.
  split; [|vm_compute; reflexivity]. intros k g p E. injection E as <-. do 6 eexists. split; [reflexivity|]. split; [split; [discriminate|reflexivity]|]. intros [H _]. apply H. reflexivity.
Qed.
