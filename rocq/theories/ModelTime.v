(** * The client with a clock

    [ModelWhole] lets a time-out fire at any moment.  Here there is a clock, and the
    waits end when the code says: the context of tsm.ID (readprop.go:14, writeprop.go:12,
    readmulti.go:23, writemulti.go:13), the context of tsm.Receive
    (tsm/transactions.go:90), the two contexts of utsm.Subscribe (utsm/subscriber.go:58,
    62) with the time of the last message (utsm/utsm.go:68, 79).

    Simplified:
    - times are whole milliseconds;
    - a context that has run out wins against another ready case of a select or loses
      against it, as Go chooses; it never fires before its time, when it fires after its
      time is up to the schedule;
    - a step takes no time: time passes between steps ([TPass]), as much as it likes;
      what keeps it from passing while a goroutine could go on is not the model but an
      assumption of the properties ([SpecTime]). *)
From Verif Require Import ModelClient ModelSystem ModelScan ModelWhole.
From Verif Require ModelTsm ModelUtsm.
Open Scope Z_scope.

(** readprop.go:14, writeprop.go:12, readmulti.go:23, writemulti.go:13 *)
Definition id_wait (rq : request) : Z :=
  match rq with
  | RqReadMulti _ _ _ => 10000
  | RqRead _ _ | RqWrite _ _ | RqWriteMulti _ _ => 1000
  end.
(** readprop.go:49, writeprop.go:44, readmulti.go:76, writemulti.go:61 *)
Definition answer_wait : Z := 5000.
(** device.go:106, utsm/utsm.go:43-49, 87 *)
Definition scan_wait : Z := 10000.
(** device.go:107, utsm/utsm.go:53-59, 88 *)
Definition quiet_wait : Z := 2000.

Record timed := mkT {
  t_z : whole;
  t_now : Z;
  t_due : nat -> Z;       (* per goroutine: when the context of its select runs out *)
  t_end : nat -> Z;       (* per goroutine: when the context of subscriber.go:58 runs out *)
  t_heard : nat -> Z      (* per subscriber: lastReceived *)
}.
Definition t_init : timed := mkT z_init 0 (fun _ => 0) (fun _ => 0) (fun _ => 0).

(** the function with another value at [i] *)
Definition at_ (f : nat -> Z) (i : nat) (v : Z) : nat -> Z := fun j => if Nat.eqb j i then v else f j.
Definition set_due (t : timed) (i : nat) (v : Z) : timed := mkT (t_z t) (t_now t) (at_ (t_due t) i v) (t_end t) (t_heard t).
Definition set_end (t : timed) (i : nat) (v : Z) : timed := mkT (t_z t) (t_now t) (t_due t) (at_ (t_end t) i v) (t_heard t).
Definition set_heard (t : timed) (s : nat) (v : Z) : timed := mkT (t_z t) (t_now t) (t_due t) (t_end t) (at_ (t_heard t) s v).
Definition set_z (t : timed) (z : whole) : timed := mkT z (t_now t) (t_due t) (t_end t) (t_heard t).

(** The context whose Done a step waits for has run out. *)
Definition may_fire (t : timed) (a : zaction) : bool :=
  match a with
  | ZW (WTsm (ModelTsm.ATimeout i)) | ZY (YIn (ModelUtsm.VTimeout i)) => t_due t i <=? t_now t
  | _ => true
  end.

(** The clocks set by a step of the transaction manager, by where goroutine [i] was. *)
Definition clock_tsm (t : timed) (i : nat) (p : option ModelTsm.pc) : timed :=
  match p with
  (* tsm/transactions.go:90 *)
  | Some (ModelTsm.RecvLock _) => set_due t i (t_now t + answer_wait)
  | _ => t
  end.
(** The clocks set by a step of the publish/subscribe manager; [n]: the number of
    subscribers so far. *)
Definition clock_utsm (t : timed) (i n : nat) (p : option ModelUtsm.upc) : timed :=
  match p with
  (* utsm/utsm.go:79 *)
  | Some (ModelUtsm.SubNew _ _) => set_heard t n (t_now t)
  (* utsm/subscriber.go:58 *)
  | Some (ModelUtsm.SubReg _ _ _) => set_end t i (t_now t + scan_wait)
  (* utsm/subscriber.go:62, 47: of a context and its parent the earlier one counts *)
  | Some (ModelUtsm.SubTime s _) => set_due t i (Z.min (t_end t i) (t_heard t s + quiet_wait))
  (* utsm/utsm.go:68 *)
  | Some (ModelUtsm.PubSub _ _ s _) => set_heard t s (t_now t)
  | _ => t
  end.
Definition clocks (t : timed) (a : zaction) : timed :=
  match a with
  | ZRequest i rq => set_due t i (t_now t + id_wait rq)
  | ZW (WTsm (ModelTsm.AStep i)) => clock_tsm t i (nth_error (ModelTsm.sy_thr (w_tsm (z_w (t_z t)))) i)
  | ZY (YIn (ModelUtsm.VStep i)) =>
      clock_utsm t i (length (ModelUtsm.u_objs (y_u (z_y (t_z t))))) (nth_error (ModelUtsm.u_thr (y_u (z_y (t_z t)))) i)
  | _ => t
  end.

Inductive taction :=
| TDo (a : zaction)       (* a step of the client *)
| TPass (d : Z).          (* d milliseconds pass *)

(** [None]: not possible in this state. *)
Definition texec (bcast : address) (me : option address) (t : timed) (a : taction) : option timed :=
  match a with
  | TDo a =>
      if may_fire t a then
        match zexec bcast me (t_z t) a with Some z => Some (set_z (clocks t a) z) | None => None end
      else None
  | TPass d => if 0 <? d then Some (mkT (t_z t) (t_now t + d) (t_due t) (t_end t) (t_heard t)) else None
  end.

Fixpoint trun (bcast : address) (me : option address) (t : timed) (l : list taction) : option timed :=
  match l with
  | [] => Some t
  | a :: r => match texec bcast me t a with Some t' => trun bcast me t' r | None => None end
  end.
