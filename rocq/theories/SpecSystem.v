(** * What the users of a shared client observe *)

From Verif Require Import ModelClient ModelSystem.
Require Verif.ModelTsm.
Import ListNotations.
Open Scope Z_scope.

Definition both {A B} (f : A -> B) (c : call A) : call B :=
  let '(tr, r) := c in
  (tr, match r with COk a => COk (f a) | CErr e => CErr e | CPanic => CPanic | CDiverge => CDiverge end).

(** The call a caller makes, as if it were alone (ModelClient). *)
Definition alone (e : env) (me : option address) (rq : request) : call answer :=
  match rq with
  | RqRead d rp => both AnRead (ReadProperty e me d rp)
  | RqWrite d wp => both (fun _ => AnDone) (WriteProperty e me d wp)
  | RqReadMulti fuel d rp => both AnObjects (ReadMultiProperty fuel e me d rp)
  | RqWriteMulti d wp => both (fun _ => AnDone) (WriteMultiProperty e me d wp)
  end.

(** Among the inputs of a run: a received datagram that answers transaction [id]
    with [p]. *)
Definition answered (l : list waction) (id : Z) (p : payload) : Prop :=
  exists i src b, In (WArrive i src b) l /\ In (EDeliver id p) (fst (handleMsg (fun _ => true) src b)).

(** The environment [e] of one call replies only what arrived: whatever [Receive]
    returns was sent to the client for some transaction, ... *)
Definition from_the_wire (l : list waction) (e : env) : Prop :=
  forall k g p, at_reply (ev_att e k g) = Some p -> exists id, answered l id p.

(** ... for the call's own transaction. *)
Definition own_answers (l : list waction) (e : env) : Prop :=
  forall k g p, at_reply (ev_att e k g) = Some p -> exists id, ev_id e = Some id /\ answered l id p.

(** Steps in which sync.Pool hands out an object that was used before. *)
Definition recycles (a : waction) : bool :=
  match a with WTsm (ModelTsm.AGet _ (Some _)) => true | _ => false end.

(** The invoke id of a call that has got one and has not returned. *)
Definition outstanding (x : phase) : option Z :=
  match x with
  | NRun _ id _ _ _ _ | NRecv _ id _ _ _ _ | NPut _ id _ _ _ _ => Some id
  | _ => None
  end.

Definition ids_of (l : list phase) : list Z :=
  flat_map (fun x => match outstanding x with Some id => [id] | None => [] end) l.

(** The call a goroutine is in. *)
Definition req_of (x : phase) : option request :=
  match x with
  | NId rq | NRun rq _ _ _ _ _ | NRecv rq _ _ _ _ _ | NPut rq _ _ _ _ _ => Some rq
  | _ => None
  end.

(** The goroutine panics or loops by itself, outside the transaction manager. *)
Definition stuck (x : phase) : bool :=
  match x with
  | NRun _ _ _ _ _ (PRet CPanic) | NRun _ _ _ _ _ (PRet CDiverge) => true
  | _ => false
  end.

(** Neither panicked outside the transaction manager nor inside. *)
Definition alive (w : world) : bool := negb (w_dead w) && negb (ModelTsm.sy_crash (w_tsm w)).

(** Steps of goroutines that are in a call or a handler already: nothing new
    begins and no datagram arrives. *)
Definition going_on (a : waction) : bool :=
  match a with WTx _ _ | WRet _ | WTsm _ => true | _ => false end.

(** No call in progress; handlers of datagrams may still run. *)
Definition no_call (x : phase) : bool :=
  match x with NFree | NHandle _ => true | _ => false end.
