(** * A client used for requests and discovery at the same time

    The client has one transaction manager for requests and one publish/subscribe
    manager for discovery (device.go:104-114); its goroutines use both.  [ModelSystem]
    follows the requests and takes publications to return at once, [ModelScan] follows
    the discovery calls and takes deliveries to return at once; here both run side by
    side on the same goroutines and nothing is taken to return.

    handleMsg (device.go:131-241) publishes first what a network layer message
    announces (150-159) and comes to the APDU when these calls of Publish have returned;
    there it either publishes an I-Am (194) or delivers to a transaction (204-231).

    Simplified as the two are, otherwise: encoding and decoding take no time, durations
    do not appear. *)
From Verif Require Import ModelClient ModelSystem ModelScan.
From Verif Require ModelTsm.
Open Scope Z_scope.

Record whole := mkZ {
  z_w : world;                                     (* the requests *)
  z_y : syst;                                      (* the discovery calls *)
  z_rest : list (option (address * list Z))        (* per goroutine: the datagram it handles, until
                                                      it has made its publications *)
}.
Definition z_init : whole := mkZ w_init y_init [].

(** A panic in any goroutine ends the process. *)
Definition z_dead (z : whole) : bool :=
  y_dead (z_y z) || w_dead (z_w z) || ModelTsm.sy_crash (w_tsm (z_w z)).

(** Goroutine [i] is in no call and handles no datagram. *)
Definition z_free (z : whole) (i : nat) : bool :=
  match nth_error (w_ph (z_w z)) i, nth_error (y_ph (z_y z)) i, nth_error (z_rest z) i with
  | Some NFree, Some YFree, Some None => true
  | _, _, _ => false
  end.

Inductive zaction :=
| ZSpawn                                           (* a new goroutine *)
| ZRequest (i : nat) (rq : request)                (* goroutine i makes a request *)
| ZScan (i : nat) (q : scan)                       (* goroutine i makes a discovery call *)
| ZArrive (i : nat) (src : address) (b : list Z)   (* device.go:127: goroutine i handles a received
                                                      datagram, as far as its publications *)
| ZDeliver (i : nat)                               (* goroutine i has made them and goes on with
                                                      the delivery, if there is one *)
| ZW (a : waction)                                 (* a step of a request or a delivery *)
| ZY (a : yaction).                                (* a step of a discovery call or a publication *)

Definition w_step (a : waction) : bool :=
  match a with WTx _ _ | WRet _ | WTsm _ => true | WSpawn | WCall _ _ | WArrive _ _ _ => false end.
Definition y_step (a : yaction) : bool :=
  match a with YTx _ _ | YOffer _ | YCheck _ | YTake _ | YIn _ => true | YSpawn | YCall _ _ | YArrive _ _ _ _ => false end.

Definition z_do_w (me : option address) (z : whole) (a : waction) : option whole :=
  match wexec me (z_w z) a with Some w => Some (mkZ w (z_y z) (z_rest z)) | None => None end.
Definition z_do_y (bcast : address) (me : option address) (z : whole) (a : yaction) : option whole :=
  match yexec bcast me (z_y z) a with Some y => Some (mkZ (z_w z) y (z_rest z)) | None => None end.

(** [None]: not possible in this state.  A handler that has something to deliver does
    not panic before ([known] of [YArrive] only matters after the delivery). *)
Definition zexec (bcast : address) (me : option address) (z : whole) (a : zaction) : option whole :=
  if z_dead z then None else
  match a with
  | ZSpawn =>
      match wexec me (z_w z) WSpawn, yexec bcast me (z_y z) YSpawn with
      | Some w, Some y => Some (mkZ w y (z_rest z ++ [None]))
      | _, _ => None
      end
  | ZRequest i rq => if z_free z i then z_do_w me z (WCall i rq) else None
  | ZScan i q => if z_free z i then z_do_y bcast me z (YCall i q) else None
  | ZArrive i src b =>
      if z_free z i then
        match yexec bcast me (z_y z) (YArrive i src b false) with
        | Some y => Some (mkZ (z_w z) y (ModelTsm.upd (z_rest z) i (Some (src, b))))
        | None => None
        end
      else None
  | ZDeliver i =>
      match nth_error (y_ph (z_y z)) i, nth_error (z_rest z) i with
      | Some YFree, Some (Some (src, b)) =>
          match wexec me (z_w z) (WArrive i src b) with
          | Some w => Some (mkZ w (z_y z) (ModelTsm.upd (z_rest z) i None))
          | None => None
          end
      | _, _ => None
      end
  | ZW a => if w_step a then z_do_w me z a else None
  | ZY a => if y_step a then z_do_y bcast me z a else None
  end.

Fixpoint zrun (bcast : address) (me : option address) (z : whole) (l : list zaction) : option whole :=
  match l with
  | [] => Some z
  | a :: t => match zexec bcast me z a with Some z' => zrun bcast me z' t | None => None end
  end.
