(** * Properties of the transaction manager: C50 - C54, C71 *)

Require Import List ZArith Bool Lia Permutation.
Require Import Verif.ModelTsm Verif.SpecTsm Verif.ProofsTsm Verif.ProofsTsmProps.
Import ListNotations.
Open Scope Z_scope.

(** ** C50 Invoke ids are unique while in use *)
Theorem c50_invoke_ids_unique : forall n s, reachable n s ->
  NoDup (in_progress (sy_log s)) /\
  Forall (fun id => 1 <= id <= 254) (in_progress (sy_log s)).
Proof. exact ids_unique. Qed.
Print Assumptions c50_invoke_ids_unique.

(** Two callers hold ids 1 and 2 while a third is inside ID. *)
Example c50_ex : exists s, run (init 3)
    [ASpawn; ASpawn; ASpawn; ACall 0 CallID; ACall 1 CallID; ACall 2 CallID;
     AStep 1; AStep 0; AStep 2; AStep 0; AStep 1; AGet 1 None; AGet 0 None;
     AStep 1; AStep 0; AStep 1; AStep 0; AStep 2] = Some s /\
  in_progress (sy_log s) = [1; 2] /\ nth_error (sy_thr s) 2 = Some (IDGet 3).
Proof. eexists. split; [vm_compute; reflexivity|]. split; reflexivity. Qed.

(** ** C51 Concurrency limit and conservation *)
Theorem c51_conservation : forall n s, reachable n s ->
  Permutation (sy_ids s ++ flat_map handing (sy_thr s) ++ in_progress (sy_log s))
              (all_ids ++ flat_map returning (sy_thr s)) /\
  (sy_space s + total taking_slot (sy_thr s) + length (in_progress (sy_log s))
     = n + total giving_slot (sy_thr s))%nat /\
  (length (in_progress (sy_log s)) <= n)%nat.
Proof. exact conservation. Qed.
Print Assumptions c51_conservation.

Theorem c51_nothing_lost : forall n s, reachable n s ->
  (forall p, In p (sy_thr s) -> outside p = true) ->
  Permutation (sy_ids s ++ in_progress (sy_log s)) all_ids /\
  (sy_space s + length (in_progress (sy_log s)) = n)%nat.
Proof. exact nothing_lost. Qed.
Print Assumptions c51_nothing_lost.

Theorem c51_id_succeeds_below_limit : forall n s i, reachable n s -> sy_crash s = false ->
  (forall p, In p (sy_thr s) -> outside p = true) ->
  nth_error (sy_thr s) i = Some IDSpace ->
  (length (in_progress (sy_log s)) < n)%nat ->
  (length (in_progress (sy_log s)) < 254)%nat ->
  exists id o s', run s [AStep i; AStep i; AGet i None; AStep i; AStep i] = Some s' /\
    sy_log s' = EGot i id o (sy_gen s) :: sy_log s /\ ~ In id (in_progress (sy_log s)).
Proof. exact id_succeeds. Qed.
Print Assumptions c51_id_succeeds_below_limit.

(** With one slot: the second caller cannot proceed until the first releases. *)
Example c51_ex : exists s, run (init 1)
    [ASpawn; ASpawn; ACall 0 CallID; ACall 1 CallID;
     AStep 0; AStep 0; AGet 0 None; AStep 0; AStep 0] = Some s /\
  in_progress (sy_log s) = [1] /\ exec s (AStep 1) = None.
Proof. eexists. split; [vm_compute; reflexivity|]. split; reflexivity. Qed.

(** ** C52 Releasing an id never blocks *)
Theorem c52_put_completes : forall n s i, reachable n s -> sy_crash s = false ->
  sy_lock s = Some i ->
  exists k s' id g t, run s (repeat (AStep i) k) = Some s' /\ sy_crash s' = false /\
    sy_lock s' = None /\ sy_log s' = EPut i id g :: t /\ In id (in_progress (sy_log s)) /\
    ~ In id (in_progress (sy_log s')).
Proof. exact put_completes. Qed.
Print Assumptions c52_put_completes.

Theorem c52_second_put_refused : forall n s i id, reachable n s -> sy_crash s = false ->
  sy_lock s = None -> nth_error (sy_thr s) i = Some (PutLock id) ->
  ~ In id (in_progress (sy_log s)) ->
  exists s', exec s (AStep i) = Some s' /\ untouched i s s' /\
    nth_error (sy_thr s') i = Some PIdle /\ sy_log s' = EPutErr i id :: sy_log s.
Proof. exact put_refused. Qed.
Print Assumptions c52_second_put_refused.

Theorem c52_slot_goes_back : forall n s i, reachable n s -> sy_crash s = false ->
  nth_error (sy_thr s) i = Some IDBack -> exists s', exec s (AStep i) = Some s' /\
    sy_log s' = ENoId i :: sy_log s.
Proof. exact back_enabled. Qed.
Print Assumptions c52_slot_goes_back.

(** A Put that has closed its channel, with another one waiting for the mutex;
    the other one is then refused. *)
Example c52_ex : exists s, run (init 1)
    [ASpawn; ASpawn; ACall 0 CallID; AStep 0; AStep 0; AGet 0 None; AStep 0; AStep 0;
     ACall 0 (CallPut 1); ACall 1 (CallPut 1); AStep 0; AStep 0] = Some s /\
  sy_lock s = Some 0%nat /\ exec s (AStep 1) = None /\
  exists s', run s [AStep 0; AStep 0; AStep 0; AStep 0; AStep 1] = Some s' /\
    hd_error (sy_log s') = Some (EPutErr 1 1) /\ length (sy_ids s') = 254%nat.
Proof.
  eexists. split; [vm_compute; reflexivity|]. split; [reflexivity|]. split; [reflexivity|].
  eexists. split; [vm_compute; reflexivity|]. split; reflexivity.
Qed.

(** ** C53 A reply reaches only its own transaction

    False of the code: [Send] reads [s.data] after it has released the mutex, and
    the state object may meanwhile have been released and handed out again. *)
Theorem c53_own_transaction_refuted : exists n s i sid sg j rid rg v,
  reachable n s /\ In (EDeliver i sid sg j rid rg v) (sy_log s) /\ sid <> rid.
Proof.
  destruct misdelivered as (s & R & H).
  exists 20%nat, s, 1%nat, 1, 0%nat, 2%nat, 2, 1%nat, 77.
  split; [exists misdelivery; exact R|]. split; [|discriminate].
  destruct (sy_log s); [discriminate|]. injection H as ->. left. reflexivity.
Qed.
Print Assumptions c53_own_transaction_refuted.

(** What holds: a misdelivery needs a Put of one of the two transactions
    between the look-up and the delivery ... *)
Theorem c53_own_transaction_partial : forall n s, reachable n s ->
  forall l1 i sid sg j rid rg v l2,
    sy_log s = l1 ++ EDeliver i sid sg j rid rg v :: l2 ->
    In (ESendFound i sid v sg) l2 /\
    ((sid = rid /\ sg = rg) \/ (exists k, In (EClosed k sid sg) l2) \/
     (exists k, In (EClosed k rid rg) l2)).
Proof. exact deliveries_same. Qed.
Print Assumptions c53_own_transaction_partial.

(** ... and an object that sync.Pool hands out a second time. *)
Theorem c53_no_reuse_partial : forall n l s, run (init n) l = Some s ->
  forallb (fun a => negb (reuses a)) l = true ->
  forall i sid sg j rid rg v, In (EDeliver i sid sg j rid rg v) (sy_log s) ->
  sid = rid /\ sg = rg.
Proof. exact no_reuse_same. Qed.
Print Assumptions c53_no_reuse_partial.

(** A reply that is received by its caller. *)
Definition c53_run : list action :=
  [ASpawn; ASpawn; ACall 0 CallID; AStep 0; AStep 0; AGet 0 None; AStep 0; AStep 0;
   ACall 0 (CallRecv 1); AStep 0; AStep 0; ACall 1 (CallSend 1 77); AStep 1; AStep 1;
   ADeliver 1 0].
Example c53_ex : exists s, run (init 20) c53_run = Some s /\
  forallb (fun a => negb (reuses a)) c53_run = true /\
  hd_error (sy_log s) = Some (EDeliver 1 1 0 0 1 0 77).
Proof. eexists. split; [vm_compute; reflexivity|]. split; reflexivity. Qed.

(** ** C54 Late and duplicate replies are harmless

    False of the code: a Send that waits on the channel (its transaction has
    been answered already, or has timed out) panics when Put closes it. *)
Theorem c54_duplicate_reply_refuted : exists n l s,
  run (init n) l = Some s /\ sy_crash s = true.
Proof.
  destruct duplicate_crashes as (s & R & C). exists 20%nat, duplicate, s. auto.
Qed.
Print Assumptions c54_duplicate_reply_refuted.

Theorem c54_late_reply_refuted : exists n l s,
  run (init n) l = Some s /\ sy_crash s = true /\
  forall i sid sg j rid rg v, ~ In (EDeliver i sid sg j rid rg v) (sy_log s).
Proof.
  destruct late_crashes as (s & R & C). exists 20%nat, late, s.
  split; [exact R|]. split; [exact C|]. vm_compute in R. injection R as <-.
  cbn. intros. intuition discriminate.
Qed.
Print Assumptions c54_late_reply_refuted.

(** Nothing avoids the crash once a waiting Send has been overtaken by a Put. *)
Theorem c54_overtaken_never_returns : forall l s s' i id v c g,
  nth_error (sy_thr s) i = Some (SendWait id v (Some c) g) -> closed s c = true ->
  run s l = Some s' ->
  nth_error (sy_thr s') i = Some (SendWait id v (Some c) g) /\ closed s' c = true.
Proof. exact overtaken_doomed. Qed.
Print Assumptions c54_overtaken_never_returns.

(** What holds: this is the only way to crash, ... *)
Theorem c54_crash_only_overtaken_partial : forall n s, reachable n s -> sy_crash s = true ->
  exists i id v g t, sy_log s = ECrash i :: t /\ overtaken t i id v g.
Proof. exact crash_only_overtaken. Qed.
Print Assumptions c54_crash_only_overtaken_partial.

(** ... and a reply that arrives after Put has returned is refused. *)
Theorem c54_reply_after_put_partial : forall n s i id v, reachable n s -> sy_crash s = false ->
  sy_lock s = None -> nth_error (sy_thr s) i = Some (SendLock id v) ->
  ~ In id (in_progress (sy_log s)) ->
  exists s', exec s (AStep i) = Some s' /\ untouched i s s' /\
    nth_error (sy_thr s') i = Some PIdle /\ sy_log s' = ESendErr i id v :: sy_log s.
Proof. exact send_refused. Qed.
Print Assumptions c54_reply_after_put_partial.

(** A reply after Put. *)
Example c54_ex : exists s, run (init 20)
    [ASpawn; ASpawn; ACall 0 CallID; AStep 0; AStep 0; AGet 0 None; AStep 0; AStep 0;
     ACall 0 (CallPut 1); AStep 0; AStep 0; AStep 0; AStep 0; AStep 0; AStep 0;
     ACall 1 (CallSend 1 77)] = Some s /\
  in_progress (sy_log s) = [] /\ nth_error (sy_thr s) 1 = Some (SendLock 1 77) /\
  sy_lock s = None.
Proof. eexists. split; [vm_compute; reflexivity|]. repeat split; reflexivity. Qed.

(** ** C71 A reply to a waiting caller is delivered *)
Theorem c71_reply_delivered : forall n s i j id v c g, reachable n s -> sy_crash s = false ->
  sy_lock s = None ->
  nth_error (sy_thr s) j = Some (RecvWait id c g) ->
  nth_error (sy_thr s) i = Some (SendLock id v) ->
  (forall k, ~ In (EClosed k id g) (sy_log s)) ->
  exists s' t, run s [AStep i; AStep i; ADeliver i j] = Some s' /\
    sy_log s' = EDeliver i id g j id g v :: t /\
    nth_error (sy_thr s') i = Some PIdle /\ nth_error (sy_thr s') j = Some PIdle.
Proof. exact reply_delivered. Qed.
Print Assumptions c71_reply_delivered.

Example c71_ex : exists s, run (init 20) (firstn 12 c53_run) = Some s /\
  nth_error (sy_thr s) 0 = Some (RecvWait 1 (Some 0%nat) 0) /\
  nth_error (sy_thr s) 1 = Some (SendLock 1 77) /\ sy_lock s = None /\
  forall k, ~ In (EClosed k 1 0) (sy_log s).
Proof.
  eexists. split; [vm_compute; reflexivity|]. repeat split; try reflexivity.
  cbn. intros k H. intuition discriminate.
Qed.
