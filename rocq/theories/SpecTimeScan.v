(** * How long discovery calls take *)
From Verif Require Import ModelClient ModelScan ModelWhole ModelTime SpecClient SpecScan SpecTime.
From Verif Require ModelUtsm.
Import ListNotations.
Open Scope Z_scope.

(** the discovery calls of goroutine [i] that have returned *)
Definition scans_of (i : nat) (t : timed) : list sdone :=
  filter (fun f => Nat.eqb (sd_thread f) i) (y_done (z_y (t_z t))).
(** as long as no more than [old] has returned there is no state of the run in which the
    call of goroutine [i] is waiting for answers while no publication can be served any more *)
Definition never_stuck (bcast : address) (me : option address) (i : nat) (old : list sdone) (t : timed) (l : list taction) : Prop :=
  forall la lb ta, l = la ++ lb -> trun bcast me t la = Some ta -> scans_of i ta = old -> scanning (z_y (t_z ta)) i -> ~ stuck (z_y (t_z ta)).
(** goroutine [i] is in the call [q], and it is not yet time for its wait to end *)
Definition listens (i : nat) (q : scan) (t : timed) : Prop :=
  exists s store tx e, nth_error (y_ph (z_y (t_z t))) i = Some (YSub q tx e) /\
    (nth_error (ModelUtsm.u_thr (y_u (z_y (t_z t)))) i = Some (ModelUtsm.SubTime s store)
       /\ t_now t < t_end t i /\ t_now t < t_heard t s + 2000
     \/ nth_error (ModelUtsm.u_thr (y_u (z_y (t_z t)))) i = Some (ModelUtsm.SubWait s store) /\ t_now t < t_due t i).
(** the datagram from [src] announces [m] *)
Definition announces (src : address) (b : list Z) (m : Z * pub) : Prop :=
  In m (SpecRun.published (fun _ => true) [(src, b)]).
(** announcements arrive one at a time, as in [SpecScan.calm] *)
Fixpoint one_by_one (bcast : address) (me : option address) (t : timed) (l : list taction) : Prop :=
  match l with
  | [] => True
  | a :: r =>
      match a with
      | TDo (ZArrive _ src b) =>
          SpecRun.published (fun _ => true) [(src, b)] = [] \/
          (exists p, SpecRun.published (fun _ => true) [(src, b)] = [p]) /\ quiet (z_y (t_z t))
      | _ => True
      end /\
      match texec bcast me t a with Some t' => one_by_one bcast me t' r | None => True end
  end.
(** the result of the call [q] has what was announced *)
Definition tells (q : scan) (p : pub) (r : sresult) : Prop :=
  match q, p with
  | QWho _, PubIAm i => exists ds x, r = XDevices ds /\ In x ds /\ f_deviceid x = oid_inst (i_id i)
  | QRouters, PubNets l => exists found, r = XAddrs found /\ incl l found
  | QNumbers, PubNpdu n => exists found, r = XAddrs found /\ forall a, n_src n = Some a -> In a found
  | _, _ => True
  end.
