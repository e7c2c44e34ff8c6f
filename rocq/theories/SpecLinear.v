(** Many goroutines share a client and read and write the properties of the devices of a
    building.  The devices are machines (SpecDevice) on one common state. *)
From Verif Require Import ModelNet ModelSystem SpecSystem SpecWire SpecLayers SpecServices SpecObs SpecClient SpecNet SpecDevice SpecOrder.

(** where a device is: on the local network ([sp_net] = 0), or a station behind a router *)
Record spot := mkSpot { sp_ip : list Z; sp_port : Z; sp_net : Z; sp_mac : Z }.
Definition spot_ok (t : spot) : Prop := is_ip (sp_ip t) /\ is_port (sp_port t) /\ 0 <= sp_net t < 65536 /\ is_byte (sp_mac t).
Definition lives (dev : device) (t : spot) : Prop :=
  exists mac, is_byte mac /\ dv_addr dev = mkAddr (sp_net t) 0 0 (sp_ip t ++ octets 2 (sp_port t)) [mac]
  /\ sp_mac t = if sp_net t =? 0 then 0 else mac.
Definition request_to (t : spot) (id : Z) (x : op) : datagram :=
  mkDgram (sp_ip t) (sp_port t) (point_frame (sp_net t) (sp_mac t) (request_of id x)).
Definition call_of (dev : device) (x : op) : ModelSystem.request :=
  match x with
  | ORead o p idx => RqRead dev (request o p idx)
  | OWrite o p idx v prio => RqWrite dev (write_of o p idx v prio)
  end.
Definition seen_as (r : outcome ModelSystem.answer) : seen :=
  match r with COk (AnRead d) => Got d | COk _ => Done | CErr _ => Failed | _ => Crashed end.

(** * Histories *)
(** newest first; calls begin and return, a device carries out a request of a call, the
    state changes for other reasons *)
Inductive happening (S : Type) :=
| HCall (i : nat) (t : spot) (x : op)
| HServe (i : nat) (t : spot) (x : op)
| HChange (s : S)
| HEnd (i : nat) (r : seen).
Arguments HCall {S}. Arguments HServe {S}. Arguments HChange {S}. Arguments HEnd {S}.
Definition begins {S} (i : nat) (h : happening S) : bool := match h with HCall j _ _ => Nat.eqb j i | _ => false end.
Definition finishes {S} (i : nat) (h : happening S) : bool := match h with HEnd j _ => Nat.eqb j i | _ => false end.
Definition effect_on {S} (M : machine S) (x : op) (s : S) : S :=
  match x with ORead _ _ _ => s | OWrite o p idx v prio => accept M o p idx v prio s end.
Fixpoint now {S} (Ms : spot -> machine S) (s0 : S) (past : list (happening S)) : S :=
  match past with
  | [] => s0
  | HServe _ t x :: past' => effect_on (Ms t) x (now Ms s0 past')
  | HChange s :: _ => s
  | _ :: past' => now Ms s0 past'
  end.
(** what a call of [x] may return if it takes place at once in state [s] *)
Definition result_at {S} (M : machine S) (x : op) (s : S) : seen :=
  match x with
  | ORead o p idx => match m_read M s o p idx with inl vs => Got (answer o p idx (one_or_list (map shown vs))) | inr _ => Failed end
  | OWrite o p idx v prio => accepts M o p idx v prio s
  end.
(** Every result other than an error is the result of the operation at a moment between
    the beginning and the end of the call, when the device carried it out; devices carry
    out nothing but calls in progress; nothing crashes. *)
Definition explained {S} (Ms : spot -> machine S) (s0 : S) (past : list (happening S)) : Prop :=
  (forall p1 i r p2 t x p3, past = p1 ++ HEnd i r :: p2 ++ HCall i t x :: p3 -> existsb (begins i) p2 = false ->
     r = Failed \/ exists q1 q2, p2 = q1 ++ HServe i t x :: q2 /\ r = result_at (Ms t) x (now Ms s0 (q2 ++ HCall i t x :: p3)))
  /\ (forall p1 i t x p2, past = p1 ++ HServe i t x :: p2 ->
     exists q1 q2, p2 = q1 ++ HCall i t x :: q2 /\ existsb (begins i) q1 = false /\ existsb (finishes i) q1 = false).
(** no call is carried out twice *)
Definition once {S} (past : list (happening S)) : Prop :=
  forall p1 i t x p2 t' x' p3, past = p1 ++ HServe i t x :: p2 ++ HServe i t' x' :: p3 -> existsb (begins i) p2 = true.
(** what the callers can tell: everything but what the devices do *)
Definition outside {S} (h : happening S) : bool := match h with HServe _ _ _ => false | _ => true end.
Definition linearizable {S} (Ms : spot -> machine S) (s0 : S) (h : list (happening S)) : Prop :=
  exists past, filter outside past = h /\ explained Ms s0 past /\ once past.
(** how often the last call of goroutine [i] has been carried out *)
Fixpoint served {S} (i : nat) (past : list (happening S)) : nat :=
  match past with
  | [] => O
  | HCall j _ _ :: past' => if Nat.eqb j i then O else served i past'
  | HServe j _ _ :: past' => if Nat.eqb j i then Datatypes.S (served i past') else served i past'
  | _ :: past' => served i past'
  end.

(** * The system *)
(** The network loses, repeats and reorders messages but keeps none longer than the call
    lasts: devices get datagrams of calls in progress, at most as often as they were
    transmitted; clients get answers to calls in progress; and when a call comes to its
    end no handler is left that answers it. *)
Definition joint (S : Type) := (world * list (happening S))%type.
Inductive jaction (S : Type) :=
| JCall (i : nat) (dev : device) (t : spot) (x : op)
| JClient (a : waction)
| JServe (i : nat) (t : spot) (x : op)
| JChange (s : S).
Arguments JCall {S}. Arguments JClient {S}. Arguments JServe {S}. Arguments JChange {S}.
Definition noticed {S} (w w' : world) : list (happening S) :=
  if Nat.eqb (length (w_done w')) (length (w_done w)) then []
  else match w_done w' with f :: _ => [HEnd (fi_thread f) (seen_as (fi_result f))] | [] => [] end.
Definition timely {S} (Ms : spot -> machine S) (s0 : S) (w : world) (past : list (happening S)) (a : waction) : Prop :=
  match a with
  | WCall _ _ => False
  | WArrive _ src b => forall id p, In (EDeliver id p) (fst (handleMsg (fun _ => true) src b)) ->
      exists j y id' fn n q1 t x q2, nth_error (w_ph w) j = Some y /\ outstanding y = Some id' /\ sent_by y <> []
      /\ past = q1 ++ HServe j t x :: q2 /\ existsb (begins j) q1 = false
      /\ frame_func fn /\ npdu_ok n /\ n_netmsg n = false
      /\ b = spec_bvlc fn (spec_npdu n ++ snd (react (Ms t) id' x (now Ms s0 q2)))
  | WRet j => forall x id, nth_error (w_ph w) j = Some x -> outstanding x = Some id ->
      forall i v a, nth_error (w_ph w) i = Some (NHandle v) -> nth_error (w_in w) v = Some a -> ar_id a <> id
  | _ => True
  end.
Definition jstep {S} (I : S -> Prop) (me : option address) (Ms : spot -> machine S) (s0 : S) (J : joint S) (a : jaction S) (J' : joint S) : Prop :=
  let (w, past) := J in let (w', past') := J' in
  match a with
  | JCall i dev t x => spot_ok t /\ lives dev t /\ op_ok x /\ wexec me w (WCall i (call_of dev x)) = Some w' /\ past' = HCall i t x :: past
  | JClient a => timely Ms s0 w past a /\ wexec me w a = Some w' /\ past' = noticed w w' ++ past
  | JServe i t x => spot_ok t /\ op_ok x
      /\ (exists y id, nth_error (w_ph w) i = Some y /\ outstanding y = Some id /\ In (request_to t id x) (sent_by y) /\ (served i past < length (sent_by y))%nat)
      /\ (sp_net t = 0 -> sp_mac t = 0) /\ w' = w /\ past' = HServe i t x :: past
  | JChange s => I s /\ w' = w /\ past' = HChange s :: past
  end.
Inductive jreach {S} (I : S -> Prop) (me : option address) (Ms : spot -> machine S) (s0 : S) : joint S -> Prop :=
| j_start : jreach I me Ms s0 (w_init, [])
| j_next : forall J a J', jreach I me Ms s0 J -> jstep I me Ms s0 J a J' -> jreach I me Ms s0 J'.

(** a device with one number *)
Definition register : machine Z := mkMachine
  (fun s _ _ _ => inl [SVal (VUint s)])
  (fun _ _ _ _ v _ => match v with VUint n => inl n | _ => inr (2, 9) end).
