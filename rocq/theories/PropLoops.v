(** C149: scanning again and again, and the receive loops it leaves. *)
Require Import List ZArith Lia Permutation.
From Verif Require Import ModelLoops SpecRun SpecLoops ProofsLoops.
Import ListNotations.
Open Scope Z_scope.

(** The claim: a program that starts the receive loop once has a bounded number of
    them, whatever it calls later.  It does not hold. *)
Theorem c149_bounded_refuted : ~ exists B, forall size l s, lrun size loops_init l = Some s -> own_loops l = 1%nat -> (running s <= B)%nat.
Proof. exact unbounded_refutes. Qed.
Print Assumptions c149_bounded_refuted.

(** How many there are: one for every start and for every scan, less the errors of the
    socket.  Only an error ends one. *)
Theorem c149_grows_exact_partial : forall size l s, lrun size loops_init l = Some s -> (running s + failures l = own_loops l + scans l)%nat.
Proof. exact loops_exact. Qed.
Print Assumptions c149_grows_exact_partial.

(** … and every datagram is handed on once all the same, as it came: none is lost, none
    is doubled, between however many loops. *)
Theorem c149_once_partial : forall size l s, lrun size loops_init l = Some s -> lp_crash s = false ->
  exists ms, Forall2 (passed_on size) (came l) ms /\ Permutation (lp_handed s ++ in_hand s) ms.
Proof. exact once. Qed.
Print Assumptions c149_once_partial.

(** With one loop they are handed on in the order in which they came … *)
Theorem c149_in_order_partial : forall size l s, lrun size loops_init l = Some s -> lp_crash s = false -> (own_loops l + scans l <= 1)%nat ->
  exists ms, Forall2 (passed_on size) (came l) ms /\ lp_handed s ++ in_hand s = ms.
Proof. exact single. Qed.
Print Assumptions c149_in_order_partial.

(** … and with two, after one scan, they need not be: the second is handed on, the first
    waits. *)
Theorem c149_order_refuted : exists l s d1 d2 m2, lrun 2048 loops_init l = Some s /\ own_loops l = 1%nat /\ scans l = 1%nat /\ came l = [d1; d2] /\
  ~ passed_on 2048 d1 m2 /\ passed_on 2048 d2 m2 /\ lp_handed s = [m2].
Proof. exact out_of_order. Qed.
Print Assumptions c149_order_refuted.

(** A client hears as long as the errors of the socket are fewer than the loops started;
    so one error makes a client deaf that has one loop, and the next scan lets it hear
    again (C88 has the loop by itself). *)
Theorem c149_deaf_exact : forall size l s, lrun size loops_init l = Some s -> lp_crash s = false -> ~ In LClose l ->
  (hears size s <-> (failures l < own_loops l + scans l)%nat).
Proof. exact deaf_in. Qed.
Print Assumptions c149_deaf_exact.

(** When the socket has been closed the loops end: they take at most three steps each,
    take in nothing more, and stop only when they have ended. *)
Theorem c149_closed_partial : forall size l s s', lp_crash s = false -> lp_open s = false -> forallb of_loop l = true -> lrun size s l = Some s' ->
  (length l <= 3 * running s)%nat /\ came l = [] /\ ((forall a s2, of_loop a = true -> lexec size s' a <> Some s2) -> running s' = 0%nat).
Proof. exact closing. Qed.
Print Assumptions c149_closed_partial.

(** a run with the loop of the program, a scan of the network, the points of a device,
    two datagrams that overtake one another, and an error *)
Definition lx : list laction :=
  [LCall NRun; LTurn 0; LCall NWhois; LTurn 1; LTake 0 [10; 0; 0; 7] 47808 [129; 10]; LTake 1 [10; 0; 0; 9] 47808 [129; 11; 0];
   LHand 1; LCall DPoints; LCall NOther; LCall (DObjects false); LTurn 2; LFail 2].
Example c149_ex : exists s, lrun 2048 loops_init lx = Some s /\ running s = 2%nat /\ failures lx = 1%nat /\ own_loops lx = 1%nat /\ scans lx = 2%nat /\ lp_crash s = false /\ ~ In LClose lx.
Proof. eexists. split; [vm_compute; reflexivity|]. repeat split. unfold lx. cbn [In]. intros H. repeat (destruct H as [H|H]; [discriminate H|]). exact H. Qed.
(** one loop, one error, no datagram is heard; a scan, and it is *)
Example c149_ex_deaf : exists s s', lrun 2048 loops_init [LCall NRun; LTurn 0; LFail 0] = Some s /\ lexec 2048 s (LCall NWhois) = Some s' /\ ~ hears 2048 s /\ hears 2048 s'.
Proof.
  eexists. eexists. split; [vm_compute; reflexivity|]. split; [reflexivity|]. split.
  - rewrite (c149_deaf_exact 2048 [LCall NRun; LTurn 0; LFail 0]); [cbn; lia|reflexivity|reflexivity|]. cbn [In]. intros H. repeat (destruct H as [H|H]; [discriminate H|]). exact H.
  - rewrite (c149_deaf_exact 2048 [LCall NRun; LTurn 0; LFail 0; LCall NWhois]); [cbn; lia|reflexivity|reflexivity|]. cbn [In]. intros H. repeat (destruct H as [H|H]; [discriminate H|]). exact H.
Qed.
(** the loops of [lx] end after Close *)
Example c149_ex_closed : exists s s', lrun 2048 loops_init (lx ++ [LClose]) = Some s /\ lrun 2048 s [LHand 0; LTurn 0; LFail 0; LTurn 1; LFail 1] = Some s' /\ running s' = 0%nat.
Proof. eexists. eexists. split; [vm_compute; reflexivity|]. split; vm_compute; reflexivity. Qed.
