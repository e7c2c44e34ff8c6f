(** * Calls on a network without late answers: C108

    [orderly me R w_init l]: in the run [l] an answer to a transaction arrives only
    while the call that holds the invoke id is in progress, is an answer (in the
    sense of [R]) to a datagram of this call, and its handler has ended when the
    call does. *)

Require Import List ZArith Bool.
From Verif Require Import ModelClient ModelSystem SpecSystem SpecOrder.
From Verif Require Import SpecWire SpecLayers SpecServices SpecObs SpecClient.
From Verif Require ModelTsm.
From Verif Require Import ProofsSystemProps ProofsOrder.
Import ListNotations.
Open Scope Z_scope.

(** Each call ends as it would alone, with answers to its own datagrams only; state
    objects may be recycled. *)
Theorem c108_own_answers : forall me R l w f, wrun me w_init l = Some w -> orderly me R w_init l -> In f (w_done w) ->
  exists e, ev_id e = fi_id f /\ alone e me (fi_req f) = (fi_sent f, fi_result f) /\ replies_to R (fi_sent f) e.
Proof. exact own_replies. Qed.
Print Assumptions c108_own_answers.

Theorem c108_no_crash : forall me R l w, wrun me w_init l = Some w -> orderly me R w_init l ->
  ModelTsm.sy_crash (w_tsm w) = false.
Proof. exact orderly_up. Qed.
Print Assumptions c108_no_crash.

(** If the device answers truly, a read returns one of its values or an error. *)
Theorem c108_reads_right : forall me R l w f dev ip port o p idx vals,
  wrun me w_init l = Some w -> orderly me R w_init l -> In f (w_done w) ->
  fi_req f = RqRead dev (request o p idx) ->
  routable dev ip port -> addr_ok (addr_SetLength (dv_addr dev)) -> opt_addr_ok me ->
  valid_oid o -> valid_property p -> in_u32 idx ->
  answers_truly me R dev ip port o p idx vals ->
  (exists vs, vals vs /\ fi_result f = COk (AnRead (answer o p idx (one_or_list (map shown vs)))))
  \/ exists err, fi_result f = CErr err.
Proof. exact reads_right. Qed.
Print Assumptions c108_reads_right.

(** A write that succeeds was confirmed in answer to a datagram of this call. *)
Theorem c108_writes_confirmed : forall me R l w f dev wp,
  wrun me w_init l = Some w -> orderly me R w_init l -> In f (w_done w) ->
  fi_req f = RqWrite dev wp -> fi_result f = COk AnDone ->
  exists g b, In g (fi_sent f) /\ R g (PBytes b).
Proof. exact writes_right. Qed.
Print Assumptions c108_writes_confirmed.

(** Two reads at the same time of the same property of two devices; device 2 answers first. *)
Example c108_ex :
  orderly None (among wit_answers) w_init wit_orderly /\
  (forall n, n = 1 \/ n = 2 ->
     answers_truly None (among wit_answers) (wit_dev n) [10; 0; 0; n] 47808 wit_o 85 4294967295 (fun vs => vs = wit_val n)
     /\ routable (wit_dev n) [10; 0; 0; n] 47808 /\ addr_ok (addr_SetLength (dv_addr (wit_dev n)))) /\
  option_map (fun w => map (fun f => (fi_id f, fi_req f, fi_result f)) (w_done w)) (wrun None w_init wit_orderly)
  = Some [(Some 2, RqRead (wit_dev 1) (request wit_o 85 4294967295), COk (AnRead (answer wit_o 85 4294967295 (VReal 1101791232))));
          (Some 1, RqRead (wit_dev 2) (request wit_o 85 4294967295), COk (AnRead (answer wit_o 85 4294967295 (VReal 1106247680))))].
Proof.
  split; [exact wit_orderly_ok|]. split.
  - intros n Hn. split; [exact (wit_truly n Hn)|]. destruct Hn as [-> | ->]; (split; [reflexivity|]);
      unfold addr_ok; cbn; repeat split; try discriminate; constructor.
  - vm_compute. reflexivity.
Qed.
