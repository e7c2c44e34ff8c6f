(** * C55-C57: publish/subscribe *)

Require Import List ZArith Bool Lia.
Require Import Verif.ModelTsm Verif.ModelUtsm Verif.SpecUtsm Verif.ProofsUtsm Verif.ProofsUtsmProps Verif.ProofsFate.
Import ListNotations.
Open Scope Z_scope.

(** C55.  Received so far, then queued, then (only while a Publish is under way)
    the value of that Publish: exactly what was published for this subscriber. *)
Theorem c55_received_exact : forall u i p s store, ureachable u ->
  nth_error (u_thr u) i = Some p -> receiving p = Some (s, store) ->
  exists lo hi rest, meant_for s (u_log u) = Some (lo, hi, store ++ queue u s ++ rest) /\
    (u_lock u = None -> rest = []) /\
    (rest = [] \/ exists k id v q, u_lock u = Some k /\ nth_error (u_thr u) k = Some q /\
       publishing q = Some (id, v) /\ lo <= id <= hi /\ rest = [v]).
Proof. exact received_exact. Qed.
Print Assumptions c55_received_exact.

(** What Subscribe returns misses at most one value at the end. *)
Theorem c55_returned_prefix : forall u, ureachable u ->
  forall l1 i s store l2, u_log u = l1 ++ URet i s store :: l2 ->
  exists lo hi rest, meant_for s l2 = Some (lo, hi, store ++ rest) /\ (length rest <= 1)%nat.
Proof. exact returned_prefix. Qed.
Print Assumptions c55_returned_prefix.

Definition pub1 (id v : Z) : list uaction :=
  [VCall 1 (CallPub id v); VStep 1; VStep 1; VStep 1; VStep 1; VStep 1; VStep 1].

(** A subscriber for 10..20 that has received one value, with another one queued
    and one published outside of its range. *)
Definition c55_run : list uaction :=
  [VSpawn; VSpawn; VCall 0 (CallSub 10 20); VStep 0; VStep 0; VStep 0] ++ pub1 10 7 ++
  [VRecv 0] ++ [VCall 1 (CallPub 21 8); VStep 1; VStep 1; VStep 1] ++ pub1 20 9.
Example c55_ex : exists u, urun uinit c55_run = Some u /\
  nth_error (u_thr u) 0 = Some (SubTime 0 [7]) /\ queue u 0 = [9] /\
  meant_for 0 (u_log u) = Some (10, 20, [7; 9]) /\ u_lock u = None.
Proof. eexists. split; [vm_compute; reflexivity|]. repeat split. Qed.

(** ... and then times out with the value still queued. *)
Example c55_ex_returned : exists u t,
  urun uinit (c55_run ++ [VStep 0; VTimeout 0; VStep 0]) = Some u /\
  u_log u = URet 0 0 [7] :: t /\ meant_for 0 t = Some (10, 20, [7; 9]).
Proof. eexists _, _. split; [vm_compute; reflexivity|]. split; reflexivity. Qed.

(** C56.  Two values published before the subscriber is back at its select. *)
Definition c56_run : list uaction :=
  [VSpawn; VSpawn; VCall 0 (CallSub 0 10); VStep 0; VStep 0] ++ pub1 5 100 ++
  [VCall 1 (CallPub 5 101); VStep 1; VStep 1; VStep 1].
(** The same when the subscriber has timed out. *)
Definition c56_run2 : list uaction :=
  [VSpawn; VSpawn; VCall 0 (CallSub 0 10); VStep 0; VStep 0; VStep 0] ++ pub1 5 100 ++
  [VCall 1 (CallPub 5 101); VStep 1; VStep 1; VStep 1; VTimeout 0].

Theorem c56_no_deadlock_refuted : exists u, ureachable u /\ deadlocked u.
Proof.
  assert (exists u, urun uinit c56_run = Some u) as [u H]
    by (eexists; vm_compute; reflexivity).
  exists u. split; [exists c56_run; exact H|]. vm_compute in H. injection H as <-.
  split.
  - exists 0%nat. eexists. split; [reflexivity|discriminate].
  - intros [|[|i]] (p & N & NI); [split; [|split]; vm_compute; reflexivity..|].
    destruct i; discriminate.
Qed.
Print Assumptions c56_no_deadlock_refuted.

Theorem c56_timeout_deadlock_refuted : exists u store, ureachable u /\ deadlocked u /\
  nth_error (u_thr u) 0 = Some (SubRem 0 store).
Proof.
  assert (exists u, urun uinit c56_run2 = Some u) as [u H]
    by (eexists; vm_compute; reflexivity).
  exists u, []. split; [exists c56_run2; exact H|]. vm_compute in H. injection H as <-.
  split; [|reflexivity]. split.
  - exists 0%nat. eexists. split; [reflexivity|discriminate].
  - intros [|[|i]] (p & N & NI); [split; [|split]; vm_compute; reflexivity..|].
    destruct i; discriminate.
Qed.
Print Assumptions c56_timeout_deadlock_refuted.

(** It is permanent and global: whatever anybody does, the mutex of the manager
    stays taken, and no Publish enters or returns and no Subscribe registers or
    returns ever again. *)
Theorem c56_embrace_forever : forall l u u' i j s, ureachable u -> embrace u i j s ->
  urun u l = Some u' ->
  embrace u' i j s /\ u_lock u' = Some i /\ u_log u' = u_log u.
Proof. exact embrace_forever. Qed.
Print Assumptions c56_embrace_forever.

(** What holds: there is no other deadlock, ... *)
Theorem c56_only_embrace_partial : forall u, ureachable u -> deadlocked u ->
  exists i j s, embrace u i j s.
Proof. exact deadlock_is_embrace. Qed.
Print Assumptions c56_only_embrace_partial.

(** ... and a Publish that finds room in every channel returns by its own steps,
    having queued the value for exactly the subscribers whose range contains it. *)
Theorem c56_publish_completes_partial : forall u i id v, ureachable u ->
  u_lock u = None -> all_room u -> nth_error (u_thr u) i = Some (PubLock id v) ->
  exists k u', urun u (repeat (VStep i) k) = Some u' /\ u_lock u' = None /\
    u_log u' = UPubRet i :: UPub i id v :: u_log u /\ u_subs u' = u_subs u /\
    nth_error (u_thr u') i = Some UIdle /\
    (forall j, j <> i -> nth_error (u_thr u') j = nth_error (u_thr u) j) /\
    forall s x, In s (u_subs u) -> nth_error (u_objs u) s = Some x ->
      queue u' s = if (sb_lo x <=? id) && (id <=? sb_hi x) then [v] else [].
Proof. exact publish_completes. Qed.
Print Assumptions c56_publish_completes_partial.

(** The exact states from which nothing ever happens again: a publisher has still to
    serve a subscriber whose channel is full and which takes nothing any more. *)
Theorem c56_silent_exact_partial : forall u, ureachable u ->
  (silent_forever u <-> exists k j s, doomed u k j s).
Proof. exact silent_iff_doomed. Qed.
Print Assumptions c56_silent_exact_partial.

(** From every other state every call in progress can still return. *)
Theorem c56_returns_partial : forall u i, ureachable u -> (forall k j s, ~ doomed u k j s) -> busy u i ->
  exists l u' e new, urun u l = Some u' /\ returns_of i e /\ u_log u' = e :: new ++ u_log u.
Proof. intros u i R. exact (busy_returns u i (ureach_inv u R)). Qed.
Print Assumptions c56_returns_partial.

(** Doomed although two goroutines can still make steps: the publisher has another
    subscriber to serve first. *)
Definition c56_run3 : list uaction :=
  [VSpawn; VSpawn; VSpawn; VCall 2 (CallSub 0 4); VStep 2; VStep 2; VStep 2; VCall 0 (CallSub 0 10); VStep 0; VStep 0; VStep 0] ++
  [VCall 1 (CallPub 5 100)] ++ repeat (VStep 1) 7 ++ [VTimeout 0; VCall 1 (CallPub 3 101); VStep 1].
Example c56_ex_doomed : exists u, urun uinit c56_run3 = Some u /\ doomed u 1 0 1 /\ uexec u (VStep 1) <> None /\ uexec u (VTimeout 2) <> None
  /\ (forall i j s, ~ embrace u i j s).
Proof.
  eexists. split; [vm_compute; reflexivity|]. split; [|split; [discriminate|split; [discriminate|]]].
  - exists (PubLoop 3 101 [0; 1]%nat), 3, [0; 1]%nat, (mkSub 0 10 [100] None), []. cbn.
    repeat (split; [reflexivity || (right; left; reflexivity) || lia || discriminate|]). left. reflexivity.
  - intros [|[|[|i]]] j s (id & v & rest & N & _); try discriminate. destruct i; discriminate.
Qed.
(** Not doomed: the subscriber is at its select, with a value queued and another one
    about to be put. *)
Example c56_ex_fine : exists u, urun uinit
    ([VSpawn; VSpawn; VCall 0 (CallSub 0 10); VStep 0; VStep 0; VStep 0] ++ pub1 5 100 ++
     [VCall 1 (CallPub 5 101); VStep 1; VStep 1; VStep 1]) = Some u /\ (forall k j s, ~ doomed u k j s) /\
  busy u 0 /\ busy u 1 /\ uexec u (VStep 1) = None.
Proof.
  eexists. split; [vm_compute; reflexivity|]. split; [|split; [|split; [|reflexivity]]].
  - intros k [|[|[|j]]] s (p & id & l & x & st & _ & _ & _ & _ & _ & _ & [P|[P _]]); discriminate.
  - eexists. split; [reflexivity|discriminate].
  - eexists. split; [reflexivity|discriminate].
Qed.

Example c56_ex : exists u, urun uinit c56_run = Some u /\ embrace u 1 0 0.
Proof.
  eexists. split; [vm_compute; reflexivity|].
  exists 5, 101, []. split; [reflexivity|]. split; [cbn; lia|]. exists []. left. reflexivity.
Qed.

(** Two subscribers, one of them outside of the range. *)
Example c56_ex_room : exists u, urun uinit
    [VSpawn; VSpawn; VSpawn; VCall 0 (CallSub 0 10); VStep 0; VStep 0;
     VCall 2 (CallSub 11 20); VStep 2; VStep 2; VStep 2; VCall 1 (CallPub 5 100)] = Some u /\
  u_lock u = None /\ u_subs u = [0; 1]%nat /\ all_room u /\
  nth_error (u_thr u) 1 = Some (PubLock 5 100).
Proof.
  eexists. split; [vm_compute; reflexivity|]. split; [reflexivity|]. split; [reflexivity|].
  split; [|reflexivity]. intros s [<-|[<-|[]]]; reflexivity.
Qed.

(** C57. *)
Theorem c57_remove_exact : forall u i s store, ureachable u -> u_lock u = None ->
  nth_error (u_thr u) i = Some (SubRem s store) ->
  exists a b u', u_subs u = a ++ s :: b /\ ~ In s (a ++ b) /\
    uexec u (VStep i) = Some u' /\ u_subs u' = a ++ b /\
    u_objs u' = u_objs u /\ u_log u' = URet i s store :: u_log u /\
    nth_error (u_thr u') i = Some UIdle /\
    (forall j, j <> i -> nth_error (u_thr u') j = nth_error (u_thr u) j).
Proof. exact remove_exact. Qed.
Print Assumptions c57_remove_exact.

(** The list itself, whatever it contains. *)
Theorem c57_remove_list : forall s a b, ~ In s a -> remove_sub s (a ++ s :: b) = a ++ b.
Proof. exact remove_sub_first. Qed.
Print Assumptions c57_remove_list.

Theorem c57_remove_absent : forall s l, ~ In s l -> remove_sub s l = l.
Proof. exact remove_sub_absent. Qed.
Print Assumptions c57_remove_absent.

(** Registered are exactly those inside Subscribe. *)
Theorem c57_registered_iff : forall u s, ureachable u ->
  (In s (u_subs u) <-> exists i p store, nth_error (u_thr u) i = Some p /\
                                         receiving p = Some (s, store)).
Proof. exact registered_iff. Qed.
Print Assumptions c57_registered_iff.

(** Three subscribers, the middle one leaves. *)
Example c57_ex : exists u u', urun uinit
    [VSpawn; VSpawn; VSpawn; VCall 0 (CallSub 0 10); VStep 0; VStep 0;
     VCall 1 (CallSub 0 10); VStep 1; VStep 1; VCall 2 (CallSub 0 10); VStep 2; VStep 2;
     VStep 1; VTimeout 1] = Some u /\ u_subs u = [0; 1; 2]%nat /\ u_lock u = None /\
  nth_error (u_thr u) 1 = Some (SubRem 1 []) /\
  uexec u (VStep 1) = Some u' /\ u_subs u' = [0; 2]%nat.
Proof.
  eexists _, _. split; [vm_compute; reflexivity|]. repeat split.
Qed.
