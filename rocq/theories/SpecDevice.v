(** A device as a state machine (135 clauses 15.5, 15.9 and 19.2), a network that loses
    messages, and what a client of the two should see. *)
From Verif Require Import ModelNet SpecWire SpecLayers SpecServices SpecObs SpecClient SpecNet.

(** the value a request to write [v] carries: binary present values are enumerated *)
Definition meant (o : object_id) (p : Z) (v : value) : value :=
  match v with VUint n => if binary_pv o p then VEnum n else v | _ => v end.
(** What a device does when asked for a property, and when asked to change one with a
    priority (0: none given): it answers with values or accepts, or it answers with an
    error class and code. *)
Record machine (S : Type) := mkMachine
  { m_read : S -> object_id -> Z -> Z -> list sent + Z * Z;
    m_write : S -> object_id -> Z -> Z -> value -> Z -> S + Z * Z }.
Arguments mkMachine {S}. Arguments m_read {S}. Arguments m_write {S}.
Definition error_range (x : Z * Z) : Prop := 0 <= fst x < 240 /\ 0 <= snd x < 256.
(** in the states [I], which it never leaves, the device answers within the ranges of
    the standard and with values the library can read (C08, C10) *)
Definition machine_ok {S} (I : S -> Prop) (M : machine S) : Prop :=
  (forall s o p idx, I s -> match m_read M s o p idx with inl vs => Forall supported vs | inr x => error_range x end)
  /\ forall s o p idx v prio, I s -> writable v -> written_standard v -> match m_write M s o p idx v prio with inl s' => I s' | inr x => error_range x end.

Inductive op := ORead (o : object_id) (p idx : Z) | OWrite (o : object_id) (p idx : Z) (v : value) (prio : Z).
Definition op_ok (x : op) : Prop :=
  match x with
  | ORead o p idx => valid_oid o /\ valid_property p /\ in_u32 idx
  | OWrite o p idx v prio => valid_oid o /\ valid_property p /\ in_u32 idx /\ is_byte prio /\ writable v /\ written_standard v
      /\ (binary_pv o p = true -> v = VNull \/ exists n, v = VUint n) /\ (forall l, v = VString l -> zlen l <= 60000)
  end.
Definition request_of (id : Z) (x : op) : list Z :=
  match x with
  | ORead o p idx => spec_read_request id o p idx
  | OWrite o p idx v prio => spec_write_request id o p idx v prio
  end.
(** the device handles a request: its next state and its answer *)
Definition react {S} (M : machine S) (id : Z) (x : op) (s : S) : S * list Z :=
  match x with
  | ORead o p idx => (s, match m_read M s o p idx with
                         | inl vs => spec_read_ack id o p idx vs
                         | inr (c, k) => spec_error id 12 c k
                         end)
  | OWrite o p idx v prio => match m_write M s o p idx (meant o p v) prio with
                             | inl s' => (s', spec_simple_ack id 15)
                             | inr (c, k) => (s, spec_error id 15 c k)
                             end
  end.

(** what becomes of a transmission and of the answer to it *)
Inductive fate := NotSent | RequestLost | AnswerLost | Arrived.
(** the device after the first [n] transmissions of the request *)
Fixpoint device_after {S} (M : machine S) (id : Z) (x : op) (f : nat -> fate) (n : nat) (s : S) : S :=
  match n with
  | O => s
  | S n' => let s' := device_after M id x f n' s in
            match f n' with AnswerLost | Arrived => fst (react M id x s') | _ => s' end
  end.
(** the environment of a call with such a device at station [mac] of network [net]
    behind [ip], [port]: what arrives passes the client's receive path *)
Definition hosts {S} (M : machine S) (ip : list Z) (port net mac : Z) (s : S) (x : op) (f : nat -> fate) (e : env) (id : Z) : Prop :=
  ev_id e = Some id /\ is_byte id
  /\ let g := mkDgram ip port (point_frame net mac (request_of id x)) in
     forall k, match f k with
     | NotSent => at_sent (ev_att e k g) = false
     | RequestLost | AnswerLost => at_sent (ev_att e k g) = true /\ at_reply (ev_att e k g) = None
     | Arrived => at_sent (ev_att e k g) = true /\ exists known src fn n reply, frame_func fn /\ npdu_ok n /\ n_netmsg n = false
         /\ at_reply (ev_att e k g) = Some reply
         /\ In (EDeliver id reply) (fst (handleMsg known src
              (spec_bvlc fn (spec_npdu n ++ snd (react M id x (device_after M id x f k s))))))
     end.

(** what the caller sees *)
Inductive seen := Got (r : property_data) | Done | Failed | Crashed.
Definition perform (me : option address) (dev : device) (e : env) (x : op) : list datagram * seen :=
  match x with
  | ORead o p idx => let r := ReadProperty e me dev (request o p idx) in
      (fst r, match snd r with COk d => Got d | CErr _ => Failed | _ => Crashed end)
  | OWrite o p idx v prio => let r := WriteProperty e me dev (write_of o p idx v prio) in
      (fst r, match snd r with COk _ => Done | CErr _ => Failed | _ => Crashed end)
  end.

(** A session: calls one after the other, and changes the device undergoes by itself or
    at the hands of others in between. *)
Inductive event (S : Type) := Call (x : op) (f : nat -> fate) (e : env) (id : Z) | Elsewhere (h : S -> S).
Arguments Call {S}. Arguments Elsewhere {S}.
(** the session takes place: every environment hosts the device in the state it has by then *)
Fixpoint session {S} (M : machine S) (ip : list Z) (port net mac : Z) (me : option address) (dev : device) (s : S) (l : list (event S)) : Prop :=
  match l with
  | [] => True
  | Call x f e id :: l' => op_ok x /\ hosts M ip port net mac s x f e id
      /\ session M ip port net mac me dev (device_after M id x f (length (fst (perform me dev e x))) s) l'
  | Elsewhere h :: l' => session M ip port net mac me dev (h s) l'
  end.
Definition stays {S} (I : S -> Prop) (x : event S) : Prop := match x with Elsewhere h => forall s, I s -> I (h s) | _ => True end.
Fixpoint what_is_seen {S} (me : option address) (dev : device) (l : list (event S)) : list seen :=
  match l with
  | [] => []
  | Call x f e id :: l' => snd (perform me dev e x) :: what_is_seen me dev l'
  | Elsewhere h :: l' => what_is_seen me dev l'
  end.
Fixpoint final_state {S} (M : machine S) (me : option address) (dev : device) (s : S) (l : list (event S)) : S :=
  match l with
  | [] => s
  | Call x f e id :: l' => final_state M me dev (device_after M id x f (length (fst (perform me dev e x))) s) l'
  | Elsewhere h :: l' => final_state M me dev (h s) l'
  end.

(** What ought to be seen, without frames, ids and attempts: a read that is answered
    shows the state of the device; a write succeeds if the device accepted it and said
    so, the first time or, if nothing was heard, the second time. *)
Definition accept {S} (M : machine S) (o : object_id) (p idx : Z) (v : value) (prio : Z) (s : S) : S :=
  match m_write M s o p idx (meant o p v) prio with inl s' => s' | inr _ => s end.
Definition accepts {S} (M : machine S) (o : object_id) (p idx : Z) (v : value) (prio : Z) (s : S) : seen :=
  match m_write M s o p idx (meant o p v) prio with inl _ => Done | inr _ => Failed end.
Definition settles {S} (M : machine S) (s : S) (x : op) (f : nat -> fate) : seen * S :=
  match x with
  | ORead o p idx => (match f O, m_read M s o p idx with
                      | Arrived, inl vs => Got (answer o p idx (one_or_list (map shown vs)))
                      | _, _ => Failed
                      end, s)
  | OWrite o p idx v prio =>
      let again s := match f 1%nat with
                     | Arrived => (accepts M o p idx v prio s, accept M o p idx v prio s)
                     | AnswerLost => (Failed, accept M o p idx v prio s)
                     | _ => (Failed, s)
                     end in
      match f O with
      | Arrived => (accepts M o p idx v prio s, accept M o p idx v prio s)
      | AnswerLost => again (accept M o p idx v prio s)
      | _ => again s
      end
  end.
Fixpoint ought {S} (M : machine S) (s : S) (l : list (event S)) : list seen * S :=
  match l with
  | [] => ([], s)
  | Call x f e id :: l' => let r := settles M s x f in let q := ought M (snd r) l' in (fst r :: fst q, snd q)
  | Elsewhere h :: l' => ought M (h s) l'
  end.

(** * Memories *)
(** Properties that keep what is written to them and do not influence each other. *)
Definition memory {S} (M : machine S) : Prop :=
  (forall s o p idx v prio s', m_write M s o p idx v prio = inl s' -> m_read M s' o p idx = inl [SVal v])
  /\ forall s o p idx v prio s' o' p' idx', m_write M s o p idx v prio = inl s' -> (o', p', idx') <> (o, p, idx) ->
     m_read M s' o' p' idx' = m_read M s o' p' idx'.
Definition writes_to {S} (o : object_id) (p idx : Z) (x : event S) : Prop :=
  match x with Call (OWrite o' p' idx' _ _) _ _ _ => (o', p', idx') = (o, p, idx) | Elsewhere _ => True | _ => False end.
Definition by_call {S} (x : event S) : Prop := match x with Call _ _ _ _ => True | Elsewhere _ => False end.

(** * Commandable points (19.2) *)
(** an output holds sixteen slots and a default; its present value is the one of the
    first filled slot *)
Record output := mkOut { ou_slots : list (option value); ou_default : value }.
Fixpoint first_filled (l : list (option value)) (dflt : value) : value :=
  match l with [] => dflt | Some v :: _ => v | None :: l' => first_filled l' dflt end.
Definition present_value (x : output) : value := first_filled (ou_slots x) (ou_default x).
(** null empties a slot *)
Definition content (v : value) : option value := match v with VNull => None | _ => Some v end.
Fixpoint put {A} (n : nat) (a : A) (l : list A) : list A :=
  match l, n with [], _ => [] | _ :: l', O => a :: l' | b :: l', S n' => b :: put n' a l' end.
Definition command (prio : Z) (v : value) (x : output) : output :=
  mkOut (put (Z.to_nat (prio - 1)) (content v) (ou_slots x)) (ou_default x).
(** analog outputs and values take reals, binary ones enumerated, multi-state ones unsigned numbers *)
Definition fits_type (t : Z) (v : value) : bool :=
  match v with
  | VNull => true
  | VReal _ => (t =? 1) || (t =? 2)
  | VEnum _ => (t =? 4) || (t =? 5)
  | VUint _ => (t =? 14) || (t =? 19)
  | _ => false
  end.
(** writing without priority means priority 16 *)
Definition effective (prio : Z) : Z := if prio =? 0 then 16 else prio.
Definition outputs : Type := list (object_id * output).
Definition oid_is (a b : object_id) : bool := (oid_type a =? oid_type b) && (oid_inst a =? oid_inst b).
Fixpoint at_output (s : outputs) (o : object_id) : option output :=
  match s with [] => None | (k, x) :: s' => if oid_is k o then Some x else at_output s' o end.
Definition change (o : object_id) (h : output -> output) (s : outputs) : outputs :=
  map (fun y => if oid_is (fst y) o then (fst y, h (snd y)) else y) s.
(** unknown objects, properties, wrong datatypes and priorities are refused with the
    errors of the standard *)
Definition commandable : machine outputs := mkMachine
  (fun s o p idx => match at_output s o with
     | None => inr (1, 31)
     | Some x => if (p =? 85) && (idx =? whole) then inl [SVal (present_value x)] else inr (2, 32)
     end)
  (fun s o p idx v prio => match at_output s o with
     | None => inr (1, 31)
     | Some x => if negb ((p =? 85) && (idx =? whole)) then inr (2, 40)
                 else if negb (fits_type (oid_type o) v) then inr (2, 9)
                 else if (16 <? effective prio) || (effective prio <? 1) then inr (2, 37)
                 else inl (change o (command (effective prio) v) s)
     end).
(** the calls of package network on points: reals of analog points, numbers of binary
    and multi-state points *)
Inductive point_op := PRead (p : point) | PWrite (p : point) (x : Z) | PReadNumber (p : point) | PWriteNumber (p : point) (n : Z)
  | PRelease (p : point) (prio : Z).
Inductive point_seen := Number (n : Z) | Commanded | NoResult | PointCrash.
Definition point_id (p : point) : object_id := mkOid (pt_type p) (pt_inst p).
Definition analog (t : Z) : Prop := t = 1 \/ t = 2.
Definition discrete (t : Z) : Prop := t = 4 \/ t = 5 \/ t = 14 \/ t = 19.
Definition point_op_ok (x : point_op) : Prop :=
  match x with
  | PRead p => valid_oid (point_id p) /\ analog (pt_type p)
  | PWrite p x => valid_oid (point_id p) /\ analog (pt_type p) /\ is_byte (pt_prio p) /\ in_u32 x
  | PReadNumber p => valid_oid (point_id p) /\ discrete (pt_type p)
  | PWriteNumber p n => valid_oid (point_id p) /\ discrete (pt_type p) /\ is_byte (pt_prio p) /\ in_u32 n
  | PRelease p prio => valid_oid (point_id p) /\ 1 <= prio <= 16
  end.
Definition op_point (x : point_op) : object_id :=
  match x with PRead p | PReadNumber p | PWrite p _ | PWriteNumber p _ | PRelease p _ => point_id p end.
(** the request each of them stands for *)
Definition means (x : point_op) : op :=
  match x with
  | PRead p | PReadNumber p => ORead (point_id p) 85 whole
  | PWrite p x => OWrite (point_id p) 85 whole (VReal x) (pt_prio p)
  | PWriteNumber p n => OWrite (point_id p) 85 whole (VUint n) (pt_prio p)
  | PRelease p prio => OWrite (point_id p) 85 whole VNull prio
  end.
Definition seen_number (r : call Z) : list datagram * point_seen :=
  (fst r, match snd r with COk n => Number n | CErr _ => NoResult | _ => PointCrash end).
Definition seen_done (r : call unit) : list datagram * point_seen :=
  (fst r, match snd r with COk _ => Commanded | CErr _ => NoResult | _ => PointCrash end).
Definition point_call (me : option address) (d : ndevice) (e : env) (x : point_op) : list datagram * point_seen :=
  match x with
  | PRead p => seen_number (PointReadFloat32 e me d p)
  | PWrite p x => seen_done (PointWriteAnalogue e me d p x)
  | PReadNumber p => seen_number (PointReadBool e me d p)
  | PWriteNumber p n => seen_done (PointWriteBool e me d p n)
  | PRelease p prio => seen_done (PointReleasePriority e me d (Some p) prio)
  end.
Inductive point_event := PCall (x : point_op) (f : nat -> fate) (e : env) (id : Z) | PElsewhere (h : outputs -> outputs).
(** outputs hold values of their type *)
Definition holds_type (t : Z) (v : value) : Prop := fits_type t v = true /\ v <> VNull /\ readable v.
Definition well_typed (s : outputs) : Prop := Forall (fun y =>
  length (ou_slots (snd y)) = 16%nat /\ holds_type (oid_type (fst y)) (ou_default (snd y))
  /\ forall v, In (Some v) (ou_slots (snd y)) -> holds_type (oid_type (fst y)) v) s.
Fixpoint point_session (ip : list Z) (port net mac : Z) (me : option address) (d : ndevice) (s : outputs) (l : list point_event) : Prop :=
  match l with
  | [] => True
  | PCall x f e id :: l' => point_op_ok x /\ hosts commandable ip port net mac s (means x) f e id
      /\ point_session ip port net mac me d (device_after commandable id (means x) f (length (fst (point_call me d e x))) s) l'
  | PElsewhere h :: l' => well_typed (h s) /\ point_session ip port net mac me d (h s) l'
  end.
Fixpoint points_seen (me : option address) (d : ndevice) (l : list point_event) : list point_seen :=
  match l with
  | [] => []
  | PCall x f e id :: l' => snd (point_call me d e x) :: points_seen me d l'
  | PElsewhere h :: l' => points_seen me d l'
  end.
(** What ought to be seen.  A command takes effect once if it reached the device at all,
    and succeeds if the device's answer arrived. *)
Definition handled (f : nat -> fate) : bool :=
  match f O, f 1%nat with Arrived, _ | AnswerLost, _ | _, Arrived | _, AnswerLost => true | _, _ => false end.
Definition confirmed (f : nat -> fate) : bool := match f O, f 1%nat with Arrived, _ | _, Arrived => true | _, _ => false end.
Definition number_in (v : value) : Z := match v with VReal x => x | VUint n | VEnum n => n | _ => 0 end.
Definition commanded (s : outputs) (o : object_id) (v : value) (prio : Z) (f : nat -> fate) : point_seen * outputs :=
  match at_output s o with
  | Some _ => if (16 <? effective prio) then (NoResult, s)
              else (if confirmed f then Commanded else NoResult, if handled f then change o (command (effective prio) v) s else s)
  | None => (NoResult, s)
  end.
Definition point_settles (s : outputs) (x : point_op) (f : nat -> fate) : point_seen * outputs :=
  match x with
  | PRead p | PReadNumber p => (match f O, at_output s (point_id p) with
                                | Arrived, Some x => Number (number_in (present_value x))
                                | _, _ => NoResult
                                end, s)
  | PWrite p x => commanded s (point_id p) (VReal x) (pt_prio p) f
  | PWriteNumber p n => commanded s (point_id p) (meant (point_id p) 85 (VUint n)) (pt_prio p) f
  | PRelease p prio => commanded s (point_id p) VNull prio f
  end.
Fixpoint points_final (me : option address) (d : ndevice) (s : outputs) (l : list point_event) : outputs :=
  match l with
  | [] => s
  | PCall x f e id :: l' => points_final me d (device_after commandable id (means x) f (length (fst (point_call me d e x))) s) l'
  | PElsewhere h :: l' => points_final me d (h s) l'
  end.
Fixpoint points_ought (s : outputs) (l : list point_event) : list point_seen * outputs :=
  match l with
  | [] => ([], s)
  | PCall x f e id :: l' => let r := point_settles s x f in let q := points_ought (snd r) l' in (fst r :: fst q, snd q)
  | PElsewhere h :: l' => points_ought (h s) l'
  end.
