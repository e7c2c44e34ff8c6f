(** C151: datagrams that are no BACnet/IP frames for this client are ignored. *)
From Verif Require Import ModelClient SpecWire SpecCodec SpecLayers SpecServices SpecObs SpecClient SpecFrame ProofsFrame PropTypes PropClient.
Open Scope Z_scope.

(** Of the first five octets of a datagram only the function counts: neither the type nor
    the length nor the version of the network layer make any difference. *)
Theorem c151_fields_ignored_partial : forall known src t f a b v r t' a' b' v',
  does known src (t :: f :: a :: b :: v :: r) = does known src (t' :: f :: a' :: b' :: v' :: r).
Proof. exact fields_ignored. Qed.
Print Assumptions c151_fields_ignored_partial.

(** Nor does the destination, the hop count, the priority or whether a reply is expected. *)
Theorem c151_destination_ignored_partial : forall known src f n n' w, frame_func f -> npdu_ok n -> npdu_ok n' -> n_netmsg n = false -> n_netmsg n' = false -> n_src n = n_src n' ->
  handleMsg known src (spec_bvlc f (spec_npdu n ++ w)) = handleMsg known src (spec_bvlc f (spec_npdu n' ++ w)).
Proof. exact destination_ignored. Qed.
Print Assumptions c151_destination_ignored_partial.

(** Functions other than original unicast, original broadcast and forwarded are ignored,
    as are datagrams of less than two octets. *)
Theorem c151_functions_partial : forall known src b, ~ In (nth 1 b 0) [4; 10; 11] -> handleMsg known src b = ([], false).
Proof. exact other_functions. Qed.
Print Assumptions c151_functions_partial.

(** An answer of several values of which the end is missing is taken for an answer of the
    values before, if one octet of the next has arrived. *)
Theorem c151_cut_partial : forall inv o p idx vs v vs', valid_oid o -> in_u32 p -> in_u32 idx -> Forall supported vs -> supported v ->
  exists x rest, spec_read_ack inv o p idx (vs ++ v :: vs') = x ++ rest /\ (0 < length rest)%nat /\ rp_accepts x (answer o p idx (one_or_list (map shown vs))).
Proof. exact cut. Qed.
Print Assumptions c151_cut_partial.

(** The claim: a datagram has an effect only if it is a frame, and is for this client.  It
    does not hold for the type, the length, the version and the destination. *)
Theorem c151_type_refuted : exists b e, ~ is_frame b /\ nth 0 b 0 <> 129 /\ handleMsg (fun _ => true) ex_src b = ([e], false).
Proof.
  exists [130; 10; 0; 9; 1; 0; 32; 5; 15], (EDeliver 5 (PBytes [32; 5; 15])). split; [|split; [discriminate|vm_compute; reflexivity]].
  intros (f & v & r & E & _). discriminate E.
Qed.
Print Assumptions c151_type_refuted.
Theorem c151_length_refuted : exists b e, ~ is_frame b /\ nth 2 b 0 * 256 + nth 3 b 0 <> zlen b /\ handleMsg (fun _ => true) ex_src b = ([e], false).
Proof.
  exists [129; 10; 0; 80; 1; 0; 32; 5; 15], (EDeliver 5 (PBytes [32; 5; 15])). split; [|split; [discriminate|vm_compute; reflexivity]].
  intros (f & v & r & E & _). pose proof (f_equal (skipn 5) E) as R. cbn in R. subst r. discriminate E.
Qed.
Print Assumptions c151_length_refuted.
Theorem c151_version_refuted : exists b e, ~ is_frame b /\ nth 4 b 0 <> 1 /\ handleMsg (fun _ => true) ex_src b = ([e], false).
Proof.
  exists [129; 10; 0; 9; 2; 0; 32; 5; 15], (EDeliver 5 (PBytes [32; 5; 15])). split; [|split; [discriminate|vm_compute; reflexivity]].
  intros (f & v & r & E & E1). subst v. discriminate E.
Qed.
Print Assumptions c151_version_refuted.
(** an I-Am for network 7, overheard, is announced to a client on network 5 *)
Definition fx_npdu : npdu := mkNpdu 1 (Some (mkAddr 7 1 0 [] [3])) None 0 false 0 false 0 255.
Theorem c151_destination_refuted : exists n b e, npdu_ok n /\ elsewhere [0; 5] n /\ is_frame b /\ b = spec_bvlc 11 (spec_npdu n ++ spec_iam (mkIam (mkOid 8 9) 1476 3 10 ex_src)) /\
  handleMsg (fun _ => true) ex_src b = ([e], false).
Proof.
  exists fx_npdu, (spec_bvlc 11 (spec_npdu fx_npdu ++ spec_iam (mkIam (mkOid 8 9) 1476 3 10 ex_src))), (EPubIAm 9 (mkIam (mkOid 8 9) 1476 3 10 ex_src)).
  split; [repeat split; try discriminate; repeat constructor; discriminate|]. split; [cbn; repeat split; try discriminate; intros [H|[H|[]]]; discriminate H|].
  split; [exists 11, 1; eexists; split; [reflexivity|reflexivity]|]. split; [reflexivity|vm_compute; reflexivity].
Qed.
Print Assumptions c151_destination_refuted.

(** the hypotheses above are met *)
Example c151_ex_destination : frame_func 10 /\ npdu_ok ex_npdu /\ npdu_ok fx_npdu /\ n_netmsg ex_npdu = false /\ n_netmsg fx_npdu = false /\ n_src ex_npdu = n_src fx_npdu
  /\ handleMsg (fun _ => true) ex_src (spec_bvlc 10 (spec_npdu fx_npdu ++ [32; 5; 15])) = ([EDeliver 5 (PBytes [32; 5; 15])], false).
Proof. split; [left; reflexivity|]. split; [apply ex_npdu_ok|]. split; [repeat split; try discriminate; repeat constructor; discriminate|]. repeat split; vm_compute; reflexivity. Qed.
Example c151_ex_function : handleMsg (fun _ => true) ex_src [129; 0; 0; 6; 0; 0] = ([], false).
Proof. apply c151_functions_partial. cbn. intros [H|[H|[H|[]]]]; discriminate H. Qed.
(** the object list of device 7, cut after the first two of its three objects *)
Example c151_ex_cut : let vs := [SVal (VOid (mkOid 8 7)); SVal (VOid (mkOid 0 1)); SVal (VOid (mkOid 0 2))] in
  exists x, x = firstn 22 (spec_read_ack 5 (mkOid 8 7) 76 whole vs) /\ length (spec_read_ack 5 (mkOid 8 7) 76 whole vs) = 27%nat
    /\ rp_accepts x (answer (mkOid 8 7) 76 whole (VList [VOid (mkOid 8 7); VOid (mkOid 0 1)])).
Proof. eexists. split; [reflexivity|]. split; [reflexivity|]. do 2 eexists. split; [vm_compute; reflexivity|]. split; vm_compute; reflexivity. Qed.
