(** * C125: a client used for requests and discovery at the same time

    [zrun bcast me z_init l = Some z]: the inputs and scheduling decisions [l] (calls of
    both kinds, datagrams, time-outs, steps) are possible from the start and lead to [z]. *)
Require Import List ZArith Bool Lia.
From Verif Require Import ModelClient ModelSystem ModelScan ModelWhole SpecClient SpecSystem SpecRun SpecUtsm SpecScan SpecWhole SpecWire SpecLayers SpecServices.
From Verif Require ModelTsm ModelUtsm.
From Verif Require Import ProofsWhole.
Import ListNotations.
Open Scope Z_scope.

(** The requests are in the state some run of requests alone brings about, the discovery
    calls in one that some run of discovery alone brings about, with the calls and
    datagrams of this run: all of C93-C100, C108, C109-C112 and C123 applies. *)
Theorem c125_requests : forall bcast me l z, zrun bcast me z_init l = Some z ->
  exists lw, wrun me w_init lw = Some (z_w z) /\ seen_by_requests l lw.
Proof. exact whole_requests. Qed.
Print Assumptions c125_requests.
Theorem c125_scans : forall bcast me l z, zrun bcast me z_init l = Some z ->
  exists ly, yrun bcast me y_init ly = Some (z_y z) /\ seen_by_scans l ly.
Proof. exact whole_scans. Qed.
Print Assumptions c125_scans.

(** Every request that returned did what it does alone when answered with what arrived. *)
Theorem c125_request_result : forall bcast me l z f, zrun bcast me z_init l = Some z -> In f (w_done (z_w z)) ->
  In (ZRequest (fi_thread f) (fi_req f)) l /\
  exists e, ev_id e = fi_id f /\ alone e me (fi_req f) = (fi_sent f, fi_result f) /\
    (forall k g p, at_reply (ev_att e k g) = Some p -> exists id, answered_in l id p) /\
    (forallb (fun a => negb (pool_reuse a)) l = true -> forall k g p, at_reply (ev_att e k g) = Some p -> exists id, ev_id e = Some id /\ answered_in l id p).
Proof. exact whole_request_result. Qed.
Print Assumptions c125_request_result.
(** Every discovery call that returned gives what was announced while it was
    registered, up to the last; what WhoIs finds arrived. *)
Theorem c125_scan_result : forall bcast me l z, zrun bcast me z_init l = Some z -> NoDup (map sd_sub (y_done (z_y z))) /\
  forall f, In f (y_done (z_y z)) -> exists heard missed,
    announced_during (z_y z) f = heard ++ missed /\
    (length (filter (in_asked (sd_req f)) missed) <= 1)%nat /\
    (sd_result f = XErr /\ sd_failed f = true \/ scan_gives (sd_req f) heard (sd_result f)).
Proof. exact whole_scan_result. Qed.
Print Assumptions c125_scan_result.
Theorem c125_found : forall bcast me l z f wh ds, zrun bcast me z_init l = Some z -> In f (y_done (z_y z)) ->
  sd_req f = QWho wh -> sd_result f = XDevices ds ->
  NoDup (map f_deviceid ds) /\
  forall x, In x ds -> exists i src b th, In (ZArrive th src b) l /\
    In (oid_inst (i_id i), PubIAm i) (published (fun _ => true) [(src, b)]) /\
    requested_low wh <= oid_inst (i_id i) <= requested_high wh /\ x = found_of i.
Proof. exact whole_found. Qed.
Print Assumptions c125_found.

(** Whatever the discovery calls do, even if they hang, every request can come to its
    end by steps of requests alone; and an answer that arrives ends the request that
    waits for it. *)
Theorem c125_request_ends : forall bcast me l z i x rq, zrun bcast me z_init l = Some z -> z_dead z = false ->
  nth_error (w_ph (z_w z)) i = Some x -> req_of x = Some rq -> SpecSystem.stuck x = false ->
  (forall id, snd (alone (mkEnv (Some id) (fun _ _ => mkAtt true None)) me rq) <> CPanic) ->
  exists l' z' f d, zrun bcast me z l' = Some z' /\ forallb request_step l' = true /\
    w_done (z_w z') = f :: d ++ w_done (z_w z) /\ fi_thread f = i /\ fi_req f = rq /\ z_y z' = z_y z.
Proof. exact whole_request_ends. Qed.
Print Assumptions c125_request_ends.
Theorem c125_answer_ends : forall bcast me l z i j rq id g h tr k c src b p r,
  zrun bcast me z_init l = Some z -> z_dead z = false -> ModelTsm.sy_lock (w_tsm (z_w z)) = None ->
  z_free z i = true ->
  nth_error (w_ph (z_w z)) j = Some (NRecv rq id g h tr k) ->
  nth_error (ModelTsm.sy_thr (w_tsm (z_w z))) j = Some (ModelTsm.RecvWait id c g) ->
  In (EDeliver id p) (fst (handleMsg (fun _ => true) src b)) ->
  snd (handleMsg (fun _ => true) src b) = false -> published (fun _ => true) [(src, b)] = [] ->
  k (inr p) = PRet r -> match r with COk _ | CErr _ => true | _ => false end = true ->
  exists z', zrun bcast me z (ZArrive i src b :: ZDeliver i :: map ZW ([WTsm (ModelTsm.AStep i); WTsm (ModelTsm.AStep i); WTsm (ModelTsm.ADeliver i j); WRet j] ++
                        repeat (WTsm (ModelTsm.AStep j)) 6)) = Some z' /\
    z_dead z' = false /\ z_y z' = z_y z /\
    w_done (z_w z') = mkFin j rq (Some id) (h ++ [inr (length (w_in (z_w z)))]) tr r :: w_done (z_w z).
Proof. exact whole_answer_ends. Qed.
Print Assumptions c125_answer_ends.
(** The same for discovery calls, as far as discovery itself lets them (C111). *)
Theorem c125_scan_ends : forall bcast me l z i, zrun bcast me z_init l = Some z -> z_dead z = false ->
  ~ SpecScan.stuck (z_y z) -> holder_safe (z_y z) -> scanning (z_y z) i ->
  exists l' z' f, zrun bcast me z l' = Some z' /\ forallb scan_step l' = true /\
    y_done (z_y z') = f :: y_done (z_y z) /\ sd_thread f = i /\ z_w z' = z_w z.
Proof. exact whole_scan_ends. Qed.
Print Assumptions c125_scan_ends.

(** goroutines 0 to 2: the WhoIs of C111, which hangs; 3 reads a property afterwards,
    the answer is handled by 4 *)
Definition z_bcast : address := mkAddr 0 0 6 [10; 0; 0; 255; 186; 192] [].
Definition z_from (n : Z) : address := mkAddr 0 0 6 [10; 0; 0; n; 186; 192] [].
Definition z_iam (inst : Z) : list Z :=
  spec_bvlc 11 (spec_npdu (mkNpdu 1 None None 0 false 0 false 0 0) ++ spec_iam (mkIam (mkOid 8 inst) 1476 3 260 addr0)).
Definition z_steps (i n : nat) : list zaction := repeat (ZY (YIn (ModelUtsm.VStep i))) n.
Definition z_tsm (i n : nat) : list zaction := repeat (ZW (WTsm (ModelTsm.AStep i))) n.
Definition z_read : request :=
  RqRead (mkDev (mkOid 8 1) 1476 (z_from 1)) (mkPD (mkObj [] [] (mkOid 0 1) [mkProp 85 4294967295 VNil 0])).
Definition z_ack (id : Z) : list Z := [129; 10; 0; 23; 1; 0; 48; id; 12; 12; 0; 0; 0; 1; 25; 85; 62; 68; 65; 172; 0; 0; 63].
Definition z_hung : list zaction :=
  repeat ZSpawn 5 ++ [ZScan 0 (QWho (mkWho 100 200 false 0)); ZY (YTx 0 true)] ++ z_steps 0 3 ++ ZArrive 1 (z_from 9) (z_iam 150) :: z_steps 1 6 ++
  [ZDeliver 1; ZArrive 2 (z_from 9) (z_iam 160)] ++ z_steps 2 3 ++ [ZY (YIn (ModelUtsm.VTimeout 0))].
Definition z_waits : list zaction :=
  ZRequest 3 z_read :: z_tsm 3 2 ++ ZW (WTsm (ModelTsm.AGet 3 None)) :: z_tsm 3 2 ++ [ZW (WTx 3 true)] ++ z_tsm 3 2.
Definition z_answered : list zaction :=
  [ZArrive 4 (z_from 1) (z_ack 1); ZDeliver 4] ++ z_tsm 4 2 ++ [ZW (WTsm (ModelTsm.ADeliver 4 3)); ZW (WRet 3)] ++ z_tsm 3 6.
Theorem c125_after_hang : exists bcast me l1 l2 z1 z2, zrun bcast me z_init l1 = Some z1 /\ z_dead z1 = false /\
  (forall l' z', zrun bcast me z1 l' = Some z' -> scanning (z_y z') 0) /\
  zrun bcast me z1 l2 = Some z2 /\ z_dead z2 = false /\
  w_done (z_w z1) = [] /\ exists f x, w_done (z_w z2) = [f] /\ fi_result f = COk x.
Proof.
  destruct (zrun z_bcast None z_init z_hung) as [z1|] eqn:E1; [|vm_compute in E1; discriminate].
  destruct (zrun z_bcast None z_init (z_hung ++ z_waits ++ z_answered)) as [z2|] eqn:E2; [|vm_compute in E2; discriminate].
  assert (R2 : zrun z_bcast None z1 (z_waits ++ z_answered) = Some z2) by (rewrite zrun_app, E1 in E2; exact E2).
  exists z_bcast, None, z_hung, (z_waits ++ z_answered), z1, z2. split; [exact E1|].
  assert (HS : SpecScan.stuck (z_y z1) /\ scanning (z_y z1) 0 /\ z_dead z1 = false /\ w_done (z_w z1) = []).
  { clear E2 R2. vm_compute in E1. injection E1 as <-. split; [|split; [eexists _, _, _; reflexivity|split; reflexivity]].
    exists 2%nat, 0%nat, 0%nat. eexists _, _, _, _, _. split; [reflexivity|]. split; [reflexivity|]. split; [left; reflexivity|]. split; [reflexivity|].
    split; [vm_compute; split; discriminate|]. split; [discriminate|]. left. reflexivity. }
  destruct HS as (HS & HC & HD & HW). split; [exact HD|].
  split; [intros l' z' R; exact (whole_hang _ _ _ _ _ _ _ E1 HS HC R)|]. split; [exact R2|].
  assert (K : z_dead z2 = false /\ exists f x, w_done (z_w z2) = [f] /\ fi_result f = COk x).
  { clear E1 R2 HS HC HD HW. vm_compute in E2. injection E2 as <-. split; [reflexivity|]. eexists _, _. split; reflexivity. }
  destruct K as [K1 K2]. auto.
Qed.
Print Assumptions c125_after_hang.
(** the state in which the answer of c125_answer_ends arrives, discovery hanging *)
Example c125_ex : option_map (fun z => (z_dead z, z_free z 4, ModelTsm.sy_lock (w_tsm (z_w z)), option_map req_of (nth_error (w_ph (z_w z)) 3),
    option_map SpecSystem.stuck (nth_error (w_ph (z_w z)) 3),
    match nth_error (ModelTsm.sy_thr (w_tsm (z_w z))) 3 with Some (ModelTsm.RecvWait id _ _) => Some id | _ => None end))
    (zrun z_bcast None z_init (z_hung ++ z_waits)) = Some (false, true, None, Some (Some z_read), Some false, Some 1) /\
  published (fun _ => true) [(z_from 1, z_ack 1)] = [] /\ snd (handleMsg (fun _ => true) (z_from 1) (z_ack 1)) = false.
Proof. split; [vm_compute; reflexivity|]. split; reflexivity. Qed.
(** both kinds of calls in progress and discovery free to go on *)
Example c125_scan_ex : option_map (fun z => (z_dead z, nth_error (y_ph (z_y z)) 0, ModelUtsm.u_lock (y_u (z_y z)), option_map req_of (nth_error (w_ph (z_w z)) 3)))
    (zrun z_bcast None z_init (repeat ZSpawn 4 ++ [ZScan 0 (QWho (mkWho 100 200 false 0)); ZY (YTx 0 true)] ++ z_steps 0 3 ++ z_waits))
  = Some (false, Some (YSub (QWho (mkWho 100 200 false 0)) (TSent false) false), None, Some (Some z_read)).
Proof. vm_compute. reflexivity. Qed.
