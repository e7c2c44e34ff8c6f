(** Goroutines that share a client and devices. *)
From Coq Require Import Lia ZifyBool.
From Verif Require Import ModelNet ModelSystem SpecSystem SpecWire SpecLayers SpecServices SpecObs SpecClient SpecNet SpecDevice SpecOrder SpecLinear ProofsLinear.

(** * C123 *)
(** A write whose answer was lost is carried out again: what another goroutine wrote in
    between, and was told is written, is gone without anyone writing after it. *)
Theorem c123_linearizable_refuted : exists (S : Type) (I : S -> Prop) (me : option address) (Ms : spot -> machine S) (s0 : S) (w : world) (past : list (happening S)),
  (forall t, machine_ok I (Ms t)) /\ I s0 /\ present me = false /\ jreach I me Ms s0 (w, past) /\ ~ linearizable Ms s0 (filter SpecLinear.outside past).
Proof. exact lin_refuted. Qed.
Print Assumptions c123_linearizable_refuted.

(** What holds always: a result is that of a moment during the call *)
Theorem c123_explained_partial : forall (S : Type) (I : S -> Prop) (me : option address) (Ms : spot -> machine S) (s0 : S),
  (forall t, machine_ok I (Ms t)) -> I s0 -> present me = false ->
  forall w past, jreach I me Ms s0 (w, past) -> explained Ms s0 past.
Proof. exact @joint_explained. Qed.
Print Assumptions c123_explained_partial.
(** a call is carried out at most twice, and only writes are carried out twice *)
Theorem c123_twice_partial : forall (S : Type) (I : S -> Prop) (me : option address) (Ms : spot -> machine S) (s0 : S),
  (forall t, machine_ok I (Ms t)) -> I s0 -> present me = false ->
  forall w past, jreach I me Ms s0 (w, past) ->
  (forall i, (SpecLinear.served i past <= 2)%nat)
  /\ forall p1 i t x p2 t' x' p3, past = p1 ++ HServe i t x :: p2 ++ HServe i t' x' :: p3 -> existsb (begins i) p2 = false ->
     exists o p idx v prio, x = OWrite o p idx v prio.
Proof. exact @joint_twice. Qed.
Print Assumptions c123_twice_partial.
(** so the calls are linearizable as long as no write is carried out twice *)
Theorem c123_linearizable_partial : forall (S : Type) (I : S -> Prop) (me : option address) (Ms : spot -> machine S) (s0 : S),
  (forall t, machine_ok I (Ms t)) -> I s0 -> present me = false ->
  forall w past, jreach I me Ms s0 (w, past) -> once past -> linearizable Ms s0 (filter SpecLinear.outside past).
Proof. exact @joint_once. Qed.
Print Assumptions c123_linearizable_partial.
(** and reads always are, whatever else changes the devices *)
Theorem c123_reads_partial : forall (S : Type) (I : S -> Prop) (me : option address) (Ms : spot -> machine S) (s0 : S),
  (forall t, machine_ok I (Ms t)) -> I s0 -> present me = false ->
  forall w past, jreach I me Ms s0 (w, past) ->
  (forall i t x, In (HCall i t x) past -> exists o p idx, x = ORead o p idx) -> linearizable Ms s0 (filter SpecLinear.outside past).
Proof. exact @joint_reads. Qed.
Print Assumptions c123_reads_partial.

(** Goroutine 0 writes 1 (carried out, the answer lost), goroutine 1 reads 1 and then
    writes 2; later the second transmission of goroutine 0 is carried out. *)
Example c123_ex : (exists w, jreach in_u32 None (fun _ => register) 0 (w, lin_past)) /\ once lin_past /\ now (fun _ => register) 0 lin_past = 2
  /\ (exists w, jreach in_u32 None (fun _ => register) 0 (w, lin_past2)) /\ now (fun _ => register) 0 lin_past2 = 1 /\ SpecLinear.served 0 lin_past2 = 2%nat.
Proof. exact (conj lin_reach1 (conj lin_once (conj eq_refl (conj lin_reach2 (conj eq_refl eq_refl))))). Qed.
