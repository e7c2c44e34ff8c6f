(** * Executions that go on for ever *)
From Verif Require Import ModelClient ModelSystem ModelScan ModelWhole SpecRun SpecScan.
From Verif Require ModelTsm ModelUtsm.
Import ListNotations.
Open Scope Z_scope.

(** whose step it is; a delivery is a step of the sender and of the receiver *)
Definition w_of (i : nat) (a : waction) : bool :=
  match a with
  | WTx j _ | WRet j | WTsm (ModelTsm.AStep j) | WTsm (ModelTsm.ATimeout j) | WTsm (ModelTsm.AGet j _) => Nat.eqb j i
  | WTsm (ModelTsm.ADeliver j k) => Nat.eqb j i || Nat.eqb k i
  | WSpawn | WCall _ _ | WArrive _ _ _ | WTsm _ => false
  end.
Definition y_of (i : nat) (a : yaction) : bool :=
  match a with
  | YTx j _ | YOffer j | YCheck j | YTake j
  | YIn (ModelUtsm.VStep j) | YIn (ModelUtsm.VRecv j) | YIn (ModelUtsm.VTimeout j) => Nat.eqb j i
  | YSpawn | YCall _ _ | YArrive _ _ _ _ | YIn _ => false
  end.
Definition z_of (i : nat) (a : zaction) : bool :=
  match a with
  | ZW a => w_of i a
  | ZY a => y_of i a
  | ZDeliver j => Nat.eqb j i
  | ZSpawn | ZRequest _ _ | ZScan _ _ | ZArrive _ _ _ => false
  end.

(** [zs n] is the state after [n] steps, [az n] the step taken there *)
Definition execution (bcast : address) (me : option address) (zs : nat -> whole) (az : nat -> zaction) : Prop :=
  zs 0%nat = z_init /\ forall n, zexec bcast me (zs n) (az n) = Some (zs (S n)).

(** goroutine [i] is not blocked *)
Definition can_move (bcast : address) (me : option address) (z : whole) (i : nat) : Prop :=
  exists a z', z_of i a = true /\ zexec bcast me z a = Some z'.
(** From every moment on, every goroutine takes a step again, or is blocked for ever:
    the Go scheduler runs what can run, a mutex goes round, timers fire. *)
Definition fair (bcast : address) (me : option address) (zs : nat -> whole) (az : nat -> zaction) : Prop :=
  forall i n, exists m, (n <= m)%nat /\
    (z_of i (az m) = true \/ forall m', (m <= m')%nat -> ~ can_move bcast me (zs m') i).

(** the steps of goroutine [i] among the [len] steps from step [n] on *)
Definition own_steps (i : nat) (az : nat -> zaction) (n len : nat) : nat :=
  length (filter (fun k => z_of i (az k)) (seq n len)).

(** the call has met a list that its decoder never leaves (C30) *)
Definition looping (x : phase) : bool :=
  match x with NRun _ _ _ _ _ (PRet CDiverge) => true | _ => false end.
(** only ReadMultiProperty decodes such lists *)
Definition lists (rq : request) : bool := match rq with RqReadMulti _ _ _ => true | _ => false end.

(** between the two logs of finished calls the call [f] of its goroutine was the first *)
Definition first_done (i : nat) (f : finished) (old new : list finished) : Prop :=
  exists d, new = f :: d ++ old /\ fi_thread f = i /\ forall g, In g d -> fi_thread g <> i.

(** ** Discovery *)
(** The time-out of Subscribe (subscriber.go:58) passes: a goroutine that comes to its
    select (65) again and again leaves it on that account at last. *)
Definition times_out (i : nat) : zaction := ZY (YIn (ModelUtsm.VTimeout i)).
Definition deadlines (bcast : address) (me : option address) (zs : nat -> whole) (az : nat -> zaction) : Prop :=
  forall i n, exists m, (n <= m)%nat /\
    (az m = times_out i \/ forall m', (m <= m')%nat -> zexec bcast me (zs m') (times_out i) = None).
(** between the two logs of finished discovery calls the call [f] of its goroutine was the first *)
Definition first_found (i : nat) (f : sdone) (old new : list sdone) : Prop :=
  exists d, new = f :: d ++ old /\ sd_thread f = i /\ forall g, In g d -> sd_thread g <> i.
(** An announcement arrives only when no other one is being handled and the channels of
    all subscribers are empty, and no datagram makes two announcements. *)
Definition gentle (zs : nat -> whole) (az : nat -> zaction) : Prop :=
  forall n i src b, az n = ZArrive i src b ->
    published (fun _ => true) [(src, b)] = [] \/ (exists p, published (fun _ => true) [(src, b)] = [p]) /\ quiet (z_y (zs n)).
