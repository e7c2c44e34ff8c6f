(** * How long calls take *)
From Verif Require Import ModelClient ModelSystem ModelScan ModelWhole ModelTime SpecFair.
From Verif Require ModelTsm ModelUtsm.
Import ListNotations.
Open Scope Z_scope.

(** goroutine [i] can take a step, now or without the clock going further *)
Definition can_go (bcast : address) (me : option address) (t : timed) (i : nat) : Prop :=
  exists a t', z_of i a = true /\ texec bcast me t (TDo a) = Some t'.
(** the same state [e] milliseconds later *)
Definition later (t : timed) (e : Z) : timed := mkT (t_z t) (t_now t + e) (t_due t) (t_end t) (t_heard t).
(** Time passes only while every goroutine waits: at no moment of the [d] milliseconds
    can any of them go on. *)
Definition idle_for (bcast : address) (me : option address) (t : timed) (d : Z) : Prop :=
  forall e i, 0 <= e < d -> ~ can_go bcast me (later t e) i.
Fixpoint prompt (bcast : address) (me : option address) (t : timed) (l : list taction) : Prop :=
  match l with
  | [] => True
  | a :: r => (forall d, a = TPass d -> idle_for bcast me t d)
              /\ forall t', texec bcast me t a = Some t' -> prompt bcast me t' r
  end.

(** how long a request may take *)
Definition limit (rq : request) : Z :=
  match rq with
  | RqRead _ _ => 6000              (* 1 s for an id, 5 s for the answer *)
  | RqWrite _ _ => 11000            (* 1 s, two attempts *)
  | RqReadMulti _ _ _ => 20000      (* 10 s, two attempts *)
  | RqWriteMulti _ _ => 11000
  end.
(** what of it is the wait for an id *)
Definition id_limit (rq : request) : Z := match rq with RqReadMulti _ _ _ => 10000 | _ => 1000 end.
(** the calls of goroutine [i] that have returned *)
Definition returned_of (i : nat) (t : timed) : list finished :=
  filter (fun f => Nat.eqb (fi_thread f) i) (w_done (z_w (t_z t))).
(** the attempts of a call that ended without an answer in time *)
Definition timeouts (f : finished) : Z :=
  Z.of_nat (length (filter (fun r => match r with inl CTimeout => true | _ => false end) (fi_hist f))).

(** ** An answer that comes in time *)
(** what the attempts of a call in progress have brought so far *)
Definition history (x : phase) : list reply :=
  match x with
  | NRun _ _ _ h _ _ | NRecv _ _ _ h _ _ | NPut _ _ _ h _ _ => h
  | NFree | NId _ | NHandle _ | NStray => []
  end.
(** goroutine [i] has sent a request with the transaction id [id], after the attempts
    [h], and the wait for the answer has not begun or is not over *)
Definition awaits (i : nat) (id : Z) (h : list reply) (t : timed) : Prop :=
  exists rq g tr k, nth_error (w_ph (z_w (t_z t))) i = Some (NRecv rq id g h tr k)
    /\ (nth_error (ModelTsm.sy_thr (w_tsm (z_w (t_z t)))) i = Some (ModelTsm.RecvLock id) \/ t_now t < t_due t i).
(** that attempt has brought an answer: the call is at a later attempt, or it has
    returned *)
Definition answered (i : nat) (h : list reply) (t0 t : timed) : Prop :=
  exists v r,
    (returned_of i t = returned_of i t0 /\
       exists x, nth_error (w_ph (z_w (t_z t))) i = Some x /\ history x = h ++ inr v :: r)
    \/ (exists f d, returned_of i t = d ++ f :: returned_of i t0 /\ fi_hist f = h ++ inr v :: r).
