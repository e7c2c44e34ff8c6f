(** * Many goroutines sharing one client: C93 - C100

    [wrun me w_init l = Some w]: the inputs and scheduling decisions [l] (calls,
    datagrams, time-outs, steps) are possible from the start and lead to [w]. *)

Require Import List ZArith Bool Lia Permutation.
From Verif Require Import ModelClient ModelSystem SpecSystem.
From Verif Require ModelTsm SpecTsm.
From Verif Require Import ProofsSystem ProofsSystemProps ProofsSystemLive.
Import ListNotations.
Import ModelTsm SpecTsm.
Open Scope Z_scope.

(** ** C93: false.  In some interleaving a call returns the value another device
    sent for another call.  Without recycled state objects every call returns
    what it would return alone, and in any case only what arrived. *)
Theorem c93_as_if_alone_refuted : exists me l w f, wrun me w_init l = Some w /\ alive w = true /\
  In f (w_done w) /\
  ~ exists e, ev_id e = fi_id f /\ alone e me (fi_req f) = (fi_sent f, fi_result f) /\ own_answers l e.
Proof. exists None, wit_crossed. exact crossed. Qed.
Print Assumptions c93_as_if_alone_refuted.

Theorem c93_as_if_alone_partial : forall me l w f, wrun me w_init l = Some w -> In f (w_done w) ->
  In (WCall (fi_thread f) (fi_req f)) l /\
  exists e, ev_id e = fi_id f /\ alone e me (fi_req f) = (fi_sent f, fi_result f) /\
    from_the_wire l e /\
    (forallb (fun a => negb (recycles a)) l = true -> own_answers l e).
Proof. exact finished_alone. Qed.
Print Assumptions c93_as_if_alone_partial.

(** Two calls at the same time; one gets a value, the other an Error PDU (whose code is misread, C36). *)
Example c93_ex : exists w, wrun None w_init
    ([WSpawn; WSpawn; WSpawn; WCall 0 (wit_req 1); WCall 1 (wit_req 2)] ++
     wit_id 1 None ++ wit_id 0 None ++ wit_wait 0 ++ wit_wait 1 ++
     [WArrive 2 (wit_src 2) (wit_ack 1); WTsm (AStep 2); WTsm (AStep 2); WTsm (ADeliver 2 1)] ++ wit_put 1 ++
     [WArrive 2 (wit_src 1) [129; 10; 0; 13; 1; 0; 80; 2; 12; 145; 1; 145; 31];
      WTsm (AStep 2); WTsm (AStep 2); WTsm (ADeliver 2 0)] ++ wit_put 0) = Some w /\
  map (fun f => (fi_thread f, fi_id f, fi_hist f)) (w_done w) = [(0%nat, Some 2, [inr 1%nat]); (1%nat, Some 1, [inr 0%nat])] /\
  map (fun f => match fi_result f with CErr e => Some e | _ => None end) (w_done w) = [Some (CPdu 1 145); None].
Proof. eexists. split; [vm_compute; reflexivity|]. split; reflexivity. Qed.

(** ** C94 Calls in progress never share an invoke id *)
Theorem c94_ids_distinct : forall me l w, wrun me w_init l = Some w ->
  NoDup (ids_of (w_ph w)) /\ Forall (fun id => 1 <= id <= 254) (ids_of (w_ph w)) /\
  (length (ids_of (w_ph w)) <= 20)%nat.
Proof. exact ids_distinct. Qed.
Print Assumptions c94_ids_distinct.

Example c94_ex : option_map (fun w => ids_of (w_ph w)) (wrun None w_init
    ([WSpawn; WSpawn; WCall 0 (wit_req 1); WCall 1 (wit_req 2)] ++ wit_id 1 None ++ wit_id 0 None)) = Some [2; 1].
Proof. vm_compute. reflexivity. Qed.

(** ** C95 Calls give back what they took *)
Theorem c95_everything_given_back : forall me l w, wrun me w_init l = Some w ->
  forallb no_call (w_ph w) = true ->
  in_progress (sy_log (w_tsm w)) = [] /\ Permutation (sy_ids (w_tsm w)) all_ids /\
  sy_space (w_tsm w) = 20%nat /\ sy_table (w_tsm w) = [] /\ sy_lock (w_tsm w) = None /\
  (forall p, In p (sy_thr (w_tsm w)) -> outside p = true).
Proof. exact all_back. Qed.
Print Assumptions c95_everything_given_back.

Theorem c95_next_call_gets_id : forall me l w i rq, wrun me w_init l = Some w -> alive w = true ->
  forallb no_call (w_ph w) = true -> nth_error (w_ph w) i = Some NFree ->
  exists id g w', wrun me w [WCall i rq; WTsm (AStep i); WTsm (AStep i); WTsm (AGet i None);
                             WTsm (AStep i); WTsm (AStep i)] = Some w' /\ alive w' = true /\
    1 <= id <= 254 /\ nth_error (w_ph w') i = Some (NRun rq id g [] [] (start me rq (Some id))).
Proof. exact call_gets_id. Qed.
Print Assumptions c95_next_call_gets_id.

(** One call has been answered, one has timed out, a handler is still running. *)
Example c95_ex : exists w, wrun None w_init wit_crossed = Some w /\ forallb no_call (w_ph w) = true /\
  length (w_done w) = 2%nat /\ alive w = true /\ nth_error (w_ph w) 0 = Some NFree.
Proof. eexists. split; [vm_compute; reflexivity|]. repeat split; reflexivity. Qed.

(** ** C96 A call never finds its transaction missing or closed *)
Theorem c96_transaction_stays : forall me l w, wrun me w_init l = Some w ->
  forall e, In e (sy_log (w_tsm w)) ->
    match e with ERecvNil _ _ | ERecvErr _ _ | EPutErr _ _ => true | _ => false end = false.
Proof. exact none_odd. Qed.
Print Assumptions c96_transaction_stays.

(** The log is not empty: both calls of [wit_crossed] waited and released. *)
Example c96_ex : exists w, wrun None w_init wit_crossed = Some w /\
  filter (fun e => match e with EPut _ _ _ | ERecvTimeout _ _ | ModelTsm.EDeliver _ _ _ _ _ _ _ => true | _ => false end)
         (sy_log (w_tsm w)) =
  [EPut 2 2 1; ModelTsm.EDeliver 1 1 0 2 2 1 0; EPut 0 1 0; ERecvTimeout 0 1].
Proof. eexists. split; [vm_compute; reflexivity|]. reflexivity. Qed.

(** ** C97: false: two answers to one request bring the process down.  Only such
    an overtaken answer, a datagram whose handler panics (C35), or a call that
    panics by itself does. *)
Theorem c97_stays_up_refuted : exists l w, wrun None w_init l = Some w /\ sy_crash (w_tsm w) = true /\
  forall i src b, In (WArrive i src b) l -> src = wit_src 1 /\ b = wit_ack 1.
Proof. exact twice. Qed.
Print Assumptions c97_stays_up_refuted.

Theorem c97_panic_outside_partial : forall me l w, wrun me w_init l = Some w -> w_dead w = true ->
  (exists i src b found, In (WArrive i src b) l /\ snd (handleMsg (fun _ => found) src b) = true) \/
  (exists i rq e, In (WCall i rq) l /\ snd (alone e me rq) = CPanic /\ from_the_wire l e).
Proof. exact died. Qed.
Print Assumptions c97_panic_outside_partial.

Theorem c97_panic_inside_partial : forall me l w, wrun me w_init l = Some w -> sy_crash (w_tsm w) = true ->
  exists i id v g t p, sy_log (w_tsm w) = ECrash i :: t /\ overtaken t i id v g /\ answered l id p.
Proof. exact crashed. Qed.
Print Assumptions c97_panic_inside_partial.

Example c97_ex : exists w, wrun None w_init [WSpawn; WArrive 0 (wit_src 1) [129; 4; 0; 8; 1; 0; 16; 8]] = Some w /\
  w_dead w = true.
Proof. eexists. split; [vm_compute; reflexivity|]. reflexivity. Qed.

(** ** C98 No call waits for ever *)
Theorem c98_no_deadlock : forall me l w i x rq, wrun me w_init l = Some w -> alive w = true ->
  nth_error (w_ph w) i = Some x -> req_of x = Some rq -> stuck x = false ->
  (forall id, snd (alone (mkEnv (Some id) (fun _ _ => mkAtt true None)) me rq) <> CPanic) ->
  exists l' w' f d, wrun me w l' = Some w' /\ forallb going_on l' = true /\
    w_done w' = f :: d ++ w_done w /\ fi_thread f = i /\ fi_req f = rq.
Proof. exact call_ends. Qed.
Print Assumptions c98_no_deadlock.

(** A call that waits while another goroutine holds the mutex in Put. *)
Example c98_ex : option_map (fun w => (option_map req_of (nth_error (w_ph w) 1), option_map stuck (nth_error (w_ph w) 1),
                                      sy_lock (w_tsm w), alive w))
    (wrun None w_init
    ([WSpawn; WSpawn; WCall 0 (wit_req 1); WCall 1 (wit_req 2)] ++ wit_id 1 None ++ wit_id 0 None ++
     wit_wait 0 ++ [WTsm (ATimeout 0); WTx 1 true; WRet 0; WTsm (AStep 0); WTsm (AStep 0)]))
  = Some (Some (Some (wit_req 2)), Some false, Some 0%nat, true) /\
  forall id, snd (alone (mkEnv (Some id) (fun _ _ => mkAtt true None)) None (wit_req 2)) = CErr CTimeout.
Proof. split; [vm_compute; reflexivity|]. intros id. reflexivity. Qed.

(** ** C99 An answer ends the call that waits for it *)
Theorem c99_answer_ends_call : forall me l w i j rq id g h tr k c src b p r,
  wrun me w_init l = Some w -> alive w = true -> sy_lock (w_tsm w) = None ->
  nth_error (w_ph w) i = Some NFree ->
  nth_error (w_ph w) j = Some (NRecv rq id g h tr k) ->
  nth_error (sy_thr (w_tsm w)) j = Some (RecvWait id c g) ->
  In (ModelClient.EDeliver id p) (fst (handleMsg (fun _ => true) src b)) ->
  snd (handleMsg (fun _ => true) src b) = false ->
  k (inr p) = PRet r -> match r with COk _ | CErr _ => true | _ => false end = true ->
  exists w', wrun me w ([WArrive i src b; WTsm (AStep i); WTsm (AStep i); WTsm (ADeliver i j); WRet j] ++
                        repeat (WTsm (AStep j)) 6) = Some w' /\
    alive w' = true /\
    w_done w' = mkFin j rq (Some id) (h ++ [inr (length (w_in w))]) tr r :: w_done w.
Proof. exact answer_ends_call. Qed.
Print Assumptions c99_answer_ends_call.

Example c99_ex : exists w, wrun None w_init (wit_answered (wit_src 1)) = Some w /\
  map (fun f => (fi_id f, match fi_result f with COk (AnRead x) => map pr_data (o_props (pd_object x)) | _ => [] end)) (w_done w)
  = [(Some 1, [VReal 1101791232])].
Proof. eexists. split; [vm_compute; reflexivity|]. reflexivity. Qed.

(** ** C100: false: anybody who sends the invoke id can answer a call; the source
    address of a datagram makes no difference to what is delivered. *)
Theorem c100_only_the_device_answers_refuted : exists l w f dev rp, wrun None w_init l = Some w /\ alive w = true /\
  In f (w_done w) /\ fi_req f = RqRead dev rp /\ (exists x, fi_result f = COk x) /\
  forall i src b, In (WArrive i src b) l -> src <> dv_addr dev.
Proof.
  destruct stranger as (w & f & H). exists (wit_answered (wit_src 66)), w, f, (wit_dev 1). eexists. exact H.
Qed.
Print Assumptions c100_only_the_device_answers_refuted.

Theorem c100_source_ignored_partial : forall known src src' b id p,
  In (ModelClient.EDeliver id p) (fst (handleMsg known src b)) <->
  In (ModelClient.EDeliver id p) (fst (handleMsg known src' b)).
Proof. exact source_ignored. Qed.
Print Assumptions c100_source_ignored_partial.

Example c100_ex : fst (handleMsg (fun _ => true) (wit_src 66) (wit_ack 1)) =
  [ModelClient.EDeliver 1 (PBytes [48; 1; 12; 12; 0; 0; 0; 1; 25; 85; 62; 68; 65; 172; 0; 0; 63])].
Proof. reflexivity. Qed.
