(** * A network without late answers

    What may be assumed of a network so that calls that share a client do not
    disturb each other. *)
From Verif Require Import ModelClient ModelSystem SpecSystem SpecWire SpecLayers SpecServices SpecObs SpecClient.
Require Verif.ModelTsm.
Import ListNotations.
Open Scope Z_scope.

(** The datagrams a call that has not come to its end has sent so far. *)
Definition sent_by (x : phase) : list datagram :=
  match x with NRun _ _ _ _ tr _ | NRecv _ _ _ _ tr _ => tr | _ => [] end.

(** [R g p]: payload [p] may be given in answer to the datagram [g].  A datagram
    that answers a transaction arrives only while the call with this invoke id is in
    progress, and answers one of its transmissions; when a call comes to its end no
    handler is left that answers it. *)
Definition in_order (R : datagram -> payload -> Prop) (w : world) (a : waction) : Prop :=
  match a with
  | WArrive _ src b => forall id p, In (EDeliver id p) (fst (handleMsg (fun _ => true) src b)) ->
      exists j x g, nth_error (w_ph w) j = Some x /\ outstanding x = Some id /\ In g (sent_by x) /\ R g p
  | WRet j => forall x id, nth_error (w_ph w) j = Some x -> outstanding x = Some id ->
      forall i v a, nth_error (w_ph w) i = Some (NHandle v) -> nth_error (w_in w) v = Some a -> ar_id a <> id
  | _ => True
  end.
Fixpoint orderly (me : option address) (R : datagram -> payload -> Prop) (w : world) (l : list waction) : Prop :=
  match l with
  | [] => True
  | a :: t => in_order R w a /\ match wexec me w a with Some w' => orderly me R w' t | None => True end
  end.

(** Whatever the environment of a call replies answers one of the datagrams [sent]. *)
Definition replies_to (R : datagram -> payload -> Prop) (sent : list datagram) (e : env) : Prop :=
  forall k g p, at_reply (ev_att e k g) = Some p -> exists g', In g' sent /\ R g' p.

(** The datagram in which property [p] of object [o] is asked for (C39). *)
Definition read_datagram (me : option address) (dev : device) (ip : list Z) (port id : Z) (o : object_id) (p idx : Z) : datagram :=
  let dest := addr_SetLength (dv_addr dev) in
  mkDgram ip port (spec_bvlc (send_func dest None) (spec_npdu (request_npdu dest me) ++ spec_read_request id o p idx)).
(** The device answers this question with one of the values [vals] or an error. *)
Definition answers_truly (me : option address) (R : datagram -> payload -> Prop) (dev : device) (ip : list Z) (port : Z)
  (o : object_id) (p idx : Z) (vals : list sent -> Prop) : Prop :=
  forall id pl, R (read_datagram me dev ip port id o p idx) pl ->
    (exists vs, vals vs /\ Forall supported vs /\ pl = PBytes (spec_read_ack id o p idx vs))
    \/ exists c x, pl = PErr c x.
