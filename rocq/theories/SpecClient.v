(** What the client properties observe. *)
From Verif Require Import ModelClient SpecWire SpecLayers SpecServices SpecObs.

(** a frame whose payload a receiver should handle: unicast (10) or broadcast (11) *)
Definition frame_func (f : Z) : Prop := f = 10 \/ f = 11.
(** the upper four bits of the first octet of an APDU: its PDU type *)
Definition pdu_type (apdu : list Z) : Z := match apdu with b :: _ => b / 16 | [] => 0 end.
(** invoke id: second octet of acks, errors, rejects, aborts; third of requests *)
Definition invoke_of (apdu : list Z) : Z :=
  if pdu_type apdu =? 0 then nth 2 apdu 0 else nth 1 apdu 0.

(** a transmission that nobody answered *)
Definition unanswered (e : env) : Prop :=
  forall k g, at_sent (ev_att e k g) = false \/ at_reply (ev_att e k g) = None.
(** every answer the environment delivers was produced by the receive path from
    some datagram, for the transaction of this call *)
Definition replies_from_network (e : env) (id : Z) : Prop :=
  forall k g p, at_reply (ev_att e k g) = Some p ->
  exists known src b, is_bytes b /\ In (EDeliver id p) (fst (handleMsg known src b)).

(** a write call of two attempts: what was heard of one, and what the caller gets *)
Definition heard (a : attempt) : option payload := if at_sent a then at_reply a else None.
Definition unheard (a : attempt) : cerr := if at_sent a then CTimeout else CSend.
Definition write_outcome (g : datagram) (a0 a1 : attempt) : call unit :=
  match heard a0 with
  | Some (PBytes _) => ([g], COk tt)
  | Some (PErr c k) => ([g], CErr (CPdu c k))
  | None => match heard a1 with
            | Some (PBytes _) => ([g; g], COk tt)
            | Some (PErr c k) => ([g; g], CErr (CPdu c k))
            | None => ([g; g], CErr (unheard a1))
            end
  end.
(** for several properties an Error PDU is followed by a second attempt too *)
Definition multi_outcome (g : datagram) (a0 a1 : attempt) : call unit :=
  match heard a0 with
  | Some (PBytes _) => ([g], COk tt)
  | _ => match heard a1 with
         | Some (PBytes _) => ([g; g], COk tt)
         | Some (PErr c k) => ([g; g], CErr (CWrap (CPdu c k)))
         | None => ([g; g], CErr (CWrap (unheard a1)))
         end
  end.
(** Who-Is: what was published under a key in the subscribed range *)
Definition in_range (lo hi : Z) (m : Z * pub) : bool := (lo <=? fst m) && (fst m <=? hi).
Definition requested_low (wh : whoIsOpts) : Z := Z.max 0 (wh_low wh).
Definition requested_high (wh : whoIsOpts) : Z := if 0 <? wh_high wh then wh_high wh else 4194304.
Definition whois_returns (wh : whoIsOpts) (published : list (Z * pub)) : list found :=
  whois_result (map snd (filter (in_range (fst (whois_sub wh)) (snd (whois_sub wh))) published)).
(** the receive path publishes an I-Am under its own instance *)
Definition keyed (m : Z * pub) : Prop := match snd m with PubIAm i => fst m = oid_inst (i_id i) | _ => True end.
(** a Who-Is payload asks instance [i] to answer *)
Definition asks (apdu : list Z) (i : Z) : Prop :=
  apdu = spec_whois None \/ exists lo hi, apdu = spec_whois (Some (lo, hi)) /\ lo <= i <= hi.

(** object lists *)
Definition indices (c : Z * Z) : list Z := zseq (fst c) (Z.to_nat (snd c - fst c + 1)).
(** a request as it should reach station [adr] of network [net] (6.2.2), with [hop]
    hops left *)
Definition station_frame (net : Z) (adr : list Z) (hop : Z) (apdu : list Z) : list Z :=
  spec_bvlc 10 (spec_npdu (mkNpdu 1 (Some (mkAddr net (zlen adr) 0 [] adr)) None 0 false 0 true 0 hop) ++ apdu).
(** the device [dev] is station [adr] of network [net] *)
Definition station (dev : device) (net : Z) (adr : list Z) : Prop :=
  a_net (dv_addr dev) = net /\ a_adr (dv_addr dev) = adr /\ 0 < net < 65536 /\ is_bytes adr /\ 1 <= zlen adr < 256.
(** a request to a device on the local network: version 1, reply expected *)
Definition local_frame (apdu : list Z) : list Z := spec_bvlc 10 ([1; 4] ++ apdu).
Definition local (dev : device) (ip : list Z) (port : Z) : Prop :=
  a_net (dv_addr dev) = 0 /\ a_adr (dv_addr dev) = [] /\ a_maclen (dv_addr dev) = 6 /\ is_byte (a_len (dv_addr dev)) /\ routable dev ip port.
(** How requests reach [dev]: [hdr] are the octets before the APDU, for a device on
    the local network, or for a station with a one-octet address behind a router
    (longer addresses: C43). *)
Definition reached (dev : device) (ip : list Z) (port : Z) (hdr : list Z) : Prop :=
  (hdr = [1; 4] /\ local dev ip port)
  \/ exists net a, station dev net [a] /\ routable dev ip port
     /\ hdr = spec_npdu (mkNpdu 1 (Some (mkAddr net 1 0 [] [a])) None 0 false 0 true 0 255).
Definition frame_with (hdr apdu : list Z) : list Z := spec_bvlc 10 (hdr ++ apdu).
(** the environment of one call delivers [ack] when request [req] is transmitted;
    [fuel] is enough to decode it *)
Definition serves_via (hdr : list Z) (fuel : nat) (e : env) (id : Z) (req ack : list Z) : Prop :=
  ev_id e = Some id /\ is_byte id /\ (length ack <= fuel)%nat
  /\ forall g, g_bytes g = frame_with hdr req -> at_sent (ev_att e 0 g) = true /\ at_reply (ev_att e 0 g) = Some (PBytes ack).
Definition serves : nat -> env -> Z -> list Z -> list Z -> Prop := serves_via [1; 4].
(** requests for entries of an object list and names, and the answers of a device
    whose object list is [ids] *)
Definition entry (ids : list object_id) (i : Z) : object_id := nth (Z.to_nat (i - 1)) ids (mkOid 0 0).
Definition list_request (dev : object_id) (c : Z * Z) : list (object_id * list (Z * Z)) :=
  [(dev, map (fun i => (76, i)) (indices c))].
Definition list_answer (dev : object_id) (ids : list object_id) (c : Z * Z) : list (object_id * list result) :=
  [(dev, map (fun i => mkResult 76 i [SVal (VOid (entry ids i))]) (indices c))].
Definition names_request (ids : list object_id) : list (object_id * list (Z * Z)) :=
  map (fun id => (id, [(77, whole); (28, whole)])) ids.
Definition names_answer (name desc : object_id -> list Z) (ids : list object_id) : list (object_id * list result) :=
  map (fun id => (id, [mkResult 77 whole [SVal (VString (name id))]; mkResult 28 whole [SVal (VString (desc id))]])) ids.
Definition bare (ids : list object_id) : list (object_id * object) := map (fun id => (id, mkObj [] [] id [])) ids.
(** types up to 128 are those the library takes as standardised; only their names are read *)
Definition standard (k : object_id) : bool := oid_type k <=? 128.
Definition complete (name desc : object_id -> list Z) (ids : list object_id) : list (object_id * object) :=
  map (fun id => (id, if standard id then mkObj (name id) (desc id) id [] else mkObj [] [] id [])) ids.
(** groups of five *)
Fixpoint fives {A} (n : nat) (l : list A) : list (list A) :=
  match n with O => [] | S n' => match l with [] => [] | _ => firstn 5 l :: fives n' (skipn 5 l) end end.
(** groups [cs] partition 1..l in order, none empty or larger than [size] *)
Definition partition (size l : Z) (cs : list (Z * Z)) : Prop :=
  flat_map indices cs = zseq 1 (Z.to_nat l) /\ Forall (fun c => 1 <= fst c <= snd c /\ snd c <= l /\ zlen (indices c) <= size) cs.
(** a device that answers a ReadPropertyMultiple request, if at all, with an Error
    PDU, with an answer that reports a property access error, or with one result for
    each property asked for *)
Definition multi_answer (fuel : nat) (id : Z) (xs : list (object_id * list (Z * Z))) (r : option payload) : Prop :=
  match r with
  | Some (PBytes b) => (length b <= fuel)%nat
      /\ ((exists ys, b = spec_readmulti_ack id ys /\ Forall access_ok ys /\ Forall2 (fun x y => length (snd y) = length (snd x)) xs ys)
          \/ (exists ys o rs x rest, b = spec_failing_ack id ys o rs x rest /\ Forall access_ok ys /\ valid_oid o /\ Forall result_ok rs /\ failure_ok x))
  | _ => True
  end.
Definition answers_multi (hdr : list Z) (fuel : nat) (id : Z) (e : env) : Prop :=
  forall k g xs, g_bytes g = frame_with hdr (spec_readmulti_request id xs) -> multi_answer fuel id xs (at_reply (ev_att e k g)).
(** and a ReadProperty request, if at all, with an Error PDU or a conforming ack *)
Definition answers_read (hdr : list Z) (id : Z) (e : env) : Prop :=
  forall k g o p idx, g_bytes g = frame_with hdr (spec_read_request id o p idx) ->
  match at_reply (ev_att e k g) with
  | Some (PBytes b) => exists vs, b = spec_read_ack id o p idx vs /\ Forall supported vs
  | _ => True
  end.
(** a call that returned: with a result or an error *)
Definition returns {A} (r : call A) : Prop := match snd r with COk _ => True | CErr _ => True | _ => False end.
(** a call that returned an error, or crashed before it transmitted anything *)
Definition reports {A} (r : call A) : Prop := (exists x, snd r = CErr x) \/ (fst r = [] /\ snd r = CPanic).
(** the effect is called for by the datagram [b]: it ends in an APDU of the right
    type that carries the invoke id, or in an I-Am, whose content is the matter of
    c36_published_exact_partial *)
Definition justified (b : list Z) (e : effect) : Prop :=
  match e with
  | EDeliver id (PBytes x) => (exists pre, b = pre ++ x) /\ invoke_of x = id
      /\ (pdu_type x = 2 \/ pdu_type x = 3 \/ pdu_type x = 0)
  | EDeliver id (PErr _ _) => exists pre x, b = pre ++ x /\ invoke_of x = id /\ pdu_type x = 5
  | EPubIAm k i => k = oid_inst (i_id i) /\ exists pre t raw, b = pre ++ t :: 0 :: raw /\ t / 16 = 1
  | _ => True
  end.
(** the frames of these requests, the k-th call with invoke id [inv k] *)
Definition list_frame (hdr ip : list Z) (port : Z) (dev : object_id) (inv : Z) (c : Z * Z) : datagram :=
  mkDgram ip port (frame_with hdr (spec_readmulti_request inv (list_request dev c))).
Definition names_frame (hdr ip : list Z) (port : Z) (inv : Z) (g : list object_id) : datagram :=
  mkDgram ip port (frame_with hdr (spec_readmulti_request inv (names_request g))).
Fixpoint frames {A} (f : Z -> A -> datagram) (inv : nat -> Z) (k : nat) (l : list A) : list datagram :=
  match l with [] => [] | x :: l' => f (inv k) x :: frames f inv (S k) l' end.
