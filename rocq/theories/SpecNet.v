(** What the properties of the helper types and of package network observe. *)
From Coq Require Import String Permutation.
From Verif Require Import ModelNet SpecWire SpecLayers SpecServices SpecObs SpecClient.
Open Scope Z_scope.

(** * Addresses and ports *)
(** decimal notation of an octet, and the dotted notation of an IPv4 address *)
Definition dec_octet (n : Z) : text :=
  if n <? 10 then [48 + n]
  else if n <? 100 then [48 + n / 10; 48 + n mod 10]
  else [48 + n / 100; 48 + n / 10 mod 10; 48 + n mod 10].
Definition spec_dotted (ip : list Z) : text :=
  match ip with
  | [a; b; c; d] => dec_octet a ++ 46 :: dec_octet b ++ 46 :: dec_octet c ++ 46 :: dec_octet d
  | _ => []
  end.
Definition is_ip (ip : list Z) : Prop := is_bytes ip /\ length ip = 4%nat.
Definition is_port (p : Z) : Prop := 0 <= p < 65536.
(** port 0 stands for the registered port of BACnet/IP *)
Definition effective_port (p : Z) : Z := if p =? 0 then 47808 else p.
(** the frame in which a request reaches station [mac] of network [net]; network 0 is
    the one the address belongs to *)
Definition point_frame (net mac : Z) (apdu : list Z) : list Z :=
  if net =? 0 then local_frame apdu else station_frame net [mac] 255 apdu.
(** bit [i] of an IPv4 address, from the most significant one *)
Definition ip_bit (ip : list Z) (i : nat) : bool := Z.testbit (nth (i / 8) ip 0) (Z.of_nat (7 - i mod 8)).
(** [bc] has the network bits of [ip]/[n] and all host bits set *)
Definition subnet_bcast (ip : list Z) (n : Z) (bc : list Z) : Prop :=
  is_ip bc /\ forall i, (i < 32)%nat -> ip_bit bc i = if Z.of_nat i <? n then ip_bit ip i else true.

(** * Object maps *)
(** JSON names exist for these types *)
Definition known_types : list Z := [0; 1; 2; 3; 4; 5; 8; 10; 13; 14; 15; 19; 20; 40].
Definition obj_at (om : objectMap) (t i : Z) : option object :=
  match mget Z.eqb t om with Some sub => mget Z.eqb i sub | None => None end.
Definition wf_map (om : objectMap) : Prop :=
  NoDup (map fst om) /\ Forall (fun x => NoDup (map fst (snd x))) om.
(** the same JSON document with its members in another order *)
Definition same_doc (a b : list (text * instances)) : Prop :=
  exists c, Permutation a c /\ Forall2 (fun x y => fst x = fst y /\ Permutation (snd x) (snd y)) c b.

(** * Priority arrays *)
Definition slots (p : pri) : list (option Z) :=
  [P1 p; P2 p; P3 p; P4 p; P5 p; P6 p; P7 p; P8 p; P9 p; P10 p; P11 p; P12 p; P13 p; P14 p; P15 p; P16 p].
(** 2^23 times the number a single with bits [x] stands for, for numbers from 1 on *)
Definition f32_num (x : Z) : Z := (8388608 + x mod 8388608) * 2 ^ (x / 8388608 - 127).
(** [x] are the bits of the single nearest to [n], an even one if two are *)
Definition nearest_f32 (n x : Z) : Prop :=
  if n =? 0 then x = 0
  else 127 * 8388608 <= x < 255 * 8388608
       /\ 2 * Z.abs (f32_num x - n * 8388608) <= 2 ^ Z.log2 n
       /\ (2 * Z.abs (f32_num x - n * 8388608) = 2 ^ Z.log2 n -> Z.even x = true).
(** slot and value: null releases the slot *)
Definition slot_holds (v : value) (s : option Z) : Prop :=
  match v, s with VNull, None => True | VUint n, Some x => nearest_f32 n x | _, _ => False end.
(** the values the code can put into a slot *)
Definition plain_slot (v : value) : Prop := match v with VNull => True | VUint n => in_u32 n | _ => False end.

(** * Services (clause 21, BACnetServicesSupported) without the withdrawn ones *)
Definition standard_services : list (text * Z) :=
  map (fun x => (txt (fst x), snd x))
  [("acknowledgeAlarm", 0); ("confirmedCOVNotification", 1); ("confirmedEventNotification", 2); ("getAlarmSummary", 3);
   ("getEnrollmentSummary", 4); ("subscribeCOV", 5); ("atomicReadFile", 6); ("atomicWriteFile", 7); ("addListElement", 8);
   ("removeListElement", 9); ("createObject", 10); ("deleteObject", 11); ("readProperty", 12); ("readPropertyMultiple", 14);
   ("writeProperty", 15); ("writePropertyMultiple", 16); ("deviceCommunicationControl", 17); ("confirmedPrivateTransfer", 18);
   ("confirmedTextMessage", 19); ("reinitializeDevice", 20); ("vtOpen", 21); ("vtClose", 22); ("vtData", 23); ("iAm", 26);
   ("iHave", 27); ("unconfirmedCOVNotification", 28); ("unconfirmedEventNotification", 29); ("unconfirmedPrivateTransfer", 30);
   ("unconfirmedTextMessage", 31); ("timeSynchronization", 32); ("whoHas", 33); ("whoIs", 34); ("readRange", 35);
   ("utcTimeSynchronization", 36); ("lifeSafetyOperation", 37); ("subscribeCOVProperty", 38); ("getEventInformation", 39);
   ("writeGroup", 40)]%string.

(** * Devices on the network *)
(** the device is contacted at [ip], [port] as station [mac] of network [net] *)
Definition opened (d : ndevice) (ip : list Z) (port net mac : Z) : Prop :=
  is_ip ip /\ is_port port /\ 0 <= net < 65536 /\ is_byte mac
  /\ bd_addr (nd_dev d) = mkAddr net 0 0 (ip ++ octets 2 port) [mac].
(** the client's own address, as the data link reports it *)
Definition own (me : option address) : Prop := exists ip port, length ip = 4%nat /\ me = Some (UDPToAddress ip port).
(** in call [e] the contacted device answers property [p], index [idx] of [o] with
    the values [vs] *)
Definition device_answers (e : env) (ip : list Z) (port net mac : Z) (o : object_id) (p idx : Z) (vs : list sent) : Prop :=
  exists id, ev_id e = Some id /\ is_byte id /\ Forall supported vs
  /\ let g := mkDgram ip port (point_frame net mac (spec_read_request id o p idx)) in
     at_sent (ev_att e 0 g) = true /\ at_reply (ev_att e 0 g) = Some (PBytes (spec_read_ack id o p idx vs)).
(** in call [e] nothing usable comes back: no transaction, no transmission, no answer
    or an Error PDU *)
Definition device_fails (e : env) : Prop :=
  forall k g, ev_id e = None \/ at_sent (ev_att e k g) = false \/ at_reply (ev_att e k g) = None
  \/ exists c x, at_reply (ev_att e k g) = Some (PErr c x).
(** in call [e] the contacted device acknowledges the standard's request to write [v]
    to property [p] of [o] with priority [prio] *)
Definition device_acks (e : env) (ip : list Z) (port net mac : Z) (o : object_id) (p : Z) (v : value) (prio : Z) (g : datagram) : Prop :=
  exists id, ev_id e = Some id /\ is_byte id /\ g = mkDgram ip port (point_frame net mac (spec_write_request id o p ArrayAll v prio))
  /\ at_sent (ev_att e 0 g) = true /\ at_reply (ev_att e 0 g) = Some (PBytes (spec_simple_ack id 15)).
(** a call that is answered with the values [vs], or fails *)
Definition device_reply (e : env) (ip : list Z) (port net mac : Z) (o : object_id) (p idx : Z) (r : option (list sent)) : Prop :=
  match r with
  | Some vs => device_answers e ip port net mac o p idx vs
  | None => device_fails e /\ forall id, ev_id e = Some id -> is_byte id
  end.
(** the character string, and the unsigned or enumerated number, in a reply *)
Definition text_of (r : option (list sent)) : text := match r with Some [SVal (VString s)] => s | _ => [] end.
Definition number_of (r : option (list sent)) : Z := match r with Some [SVal (VUint n)] | Some [SVal (VEnum n)] => n | _ => 0 end.
(** [g] is the frame of a read of property [p] of [o] sent to the device *)
Definition read_frame (g : datagram) (ip : list Z) (port net mac : Z) (o : object_id) (p idx : Z) : Prop :=
  exists id, is_byte id /\ g = mkDgram ip port (point_frame net mac (spec_read_request id o p idx)).
(** the replies to the four detail reads of device [id] from call [k] on *)
Definition detail_replies (envs : nat -> env) (k : nat) (ip : list Z) (port net mac id : Z) (rep : nat -> option (list sent)) : Prop :=
  device_reply (envs k) ip port net mac (mkOid 8 id) 77 whole (rep k)
  /\ device_reply (envs (S k)) ip port net mac (mkOid 8 id) 62 whole (rep (S k))
  /\ device_reply (envs (S (S k))) ip port net mac (mkOid 8 id) 121 whole (rep (S (S k)))
  /\ device_reply (envs (S (S (S k)))) ip port net mac (mkOid 8 id) 107 whole (rep (S (S (S k)))).
Definition valid_found (f : found) : Prop := 0 <= oid_inst (f_id f) <= 4194303.
(** what a list entry must tell about the device that announced itself as [f] *)
Definition entry_of (f : found) (x : ndevice) : Prop :=
  nd_id x = oid_inst (f_id f) /\ nd_net x = a_net (f_addr f) /\ nd_maxapdu x = f_maxapdu f /\ nd_seg x = f_seg f
  /\ (forall ip port, is_ip ip -> is_port port -> a_mac (f_addr f) = ip ++ octets 2 port -> nd_ip x = spec_dotted ip)
  /\ (forall a r, a_adr (f_addr f) = a :: r -> nd_mac x = a).
Definition oid_values (os : list object_id) : list sent := map (fun o => SVal (VOid o)) os.
(** in the calls from [k] on the device answers the elements of its object list one by one *)
Definition element_replies (envs : nat -> env) (k : nat) (ip : list Z) (port net mac id : Z) (os : list object_id) : Prop :=
  forall j o, nth_error os j = Some o -> device_answers (envs (k + j)%nat) ip port net mac (mkOid 8 id) 76 (Z.of_nat j + 1) [SVal (VOid o)].
(** values that fit into a request with room to spare *)
Definition fits (v : value) : Prop := match v with VString l => zlen l <= 60000 | VNull | VUint _ | VReal _ | VDouble _ => True | _ => False end.
(** a device announced from [ip], [port] *)
Definition good_found (f : found) (ip : list Z) (port : Z) : Prop :=
  is_ip ip /\ is_port port /\ f_ipport f = Some (ip, port) /\ 0 <= f_netnum f < 65536 /\ is_byte (f_macmstp f) /\ 0 <= f_deviceid f <= 4194303.
(** the number of reads GetDevicePoints makes for an object, and for a list of them *)
Definition binary_type (t : Z) : bool := (t =? 3) || (t =? 4) || (t =? 5).
Definition calls_of (o : object_id) : nat := if oid_type o =? 8 then 0 else if binary_type (oid_type o) then 1 else 2.
Fixpoint calls_before (l : list object_id) : nat := match l with [] => 0 | o :: l' => calls_of o + calls_before l' end.
(** the entry of object [o] whose name and units were answered so *)
Definition point_entry (o : object_id) (name units : option (list sent)) : pointDetails :=
  if binary_type (oid_type o) then mkPD' (text_of name) 0 None (oid_inst o) (oid_type o) (type_string (oid_type o))
  else mkPD' (text_of name) (number_of units) (Some (u16 (number_of units))) (oid_inst o) (oid_type o) (type_string (oid_type o)).
