(** Independent description of the BVLC, NPDU and APDU headers (135 Annex J,
    clauses 6.2 and 20.1) and of the unconfirmed services used. *)
From Verif Require Import Types SpecWire.

(** J.2: type, function, total length, payload *)
Definition spec_bvlc (func : Z) (payload : list Z) : list Z :=
  129 :: func :: octets 2 (zlen payload + 4) ++ payload.

(** 6.2.2: an address specifier is a 2-octet network number, a length and the
    address *)
Definition spec_addr (a : address) : list Z := octets 2 (a_net a) ++ zlen (a_adr a) :: a_adr a.
Definition present (a : option address) : bool :=
  match a with Some a => negb (a_net a =? 0) | None => false end.
Definition spec_opt_addr (a : option address) : list Z :=
  match a with Some x => if present a then spec_addr x else [] | None => [] end.
(** 6.2.2: version, control octet, DNET/DLEN/DADR, SNET/SLEN/SADR, hop count when
    a destination is present, message type and vendor (messages from 0x80 up) *)
Definition spec_npdu (n : npdu) : list Z :=
  [n_version n;
   bit_z (n_netmsg n) * 128 + bit_z (present (n_dest n)) * 32 + bit_z (present (n_src n)) * 8
   + bit_z (n_reply n) * 4 + n_prio n]
  ++ spec_opt_addr (n_dest n) ++ spec_opt_addr (n_src n)
  ++ (if present (n_dest n) then [n_hop n] else [])
  ++ (if n_netmsg n then n_msgtype n :: (if 128 <=? n_msgtype n then octets 2 (n_vendor n) else []) else []).

(** field ranges; an address length octet matches the address *)
Definition addr_ok (a : address) : Prop :=
  0 <= a_net a < 65536 /\ a_len a = zlen (a_adr a) /\ zlen (a_adr a) < 256 /\ is_bytes (a_adr a).
Definition opt_addr_ok (a : option address) : Prop := match a with Some a => addr_ok a | None => True end.
Definition npdu_ok (n : npdu) : Prop :=
  is_byte (n_version n) /\ opt_addr_ok (n_dest n) /\ opt_addr_ok (n_src n)
  /\ 0 <= n_vendor n < 65536 /\ is_byte (n_msgtype n) /\ 0 <= n_prio n < 4 /\ is_byte (n_hop n).

(** the fields a receiver can see *)
Definition seen_addr (a : option address) : option address :=
  match a with
  | Some x => if present a then Some (mkAddr (a_net x) (zlen (a_adr x)) 0 [] (a_adr x)) else None
  | None => None
  end.
Definition npdu_seen (n : npdu) : npdu :=
  mkNpdu (n_version n) (seen_addr (n_dest n)) (seen_addr (n_src n))
    (if n_netmsg n && (128 <=? n_msgtype n) then n_vendor n else 0)
    (n_netmsg n) (if n_netmsg n then n_msgtype n else 0) (n_reply n) (n_prio n)
    (if present (n_dest n) then n_hop n else 0).

(** 20.1.2.4: max-segments-accepted and max-APDU-length-accepted codes *)
Definition apdu_sizes : list Z := [50; 128; 206; 480; 1024; 1476].
(** the smallest standard size not below [n], and 50 above the largest *)
Definition size_up (n : Z) : Z :=
  if n <=? 50 then 50 else if n <=? 128 then 128 else if n <=? 206 then 206
  else if n <=? 480 then 480 else if n <=? 1024 then 1024 else if n <=? 1476 then 1476 else 50.

(** 20.1.2, 20.1.3, 20.1.5 headers *)
Definition flags (seg more sa : bool) : Z := bit_z seg * 8 + bit_z more * 4 + bit_z sa * 2.
Definition spec_confirmed (seg more sa : bool) (sizes inv seq win svc : Z) : list Z :=
  [flags seg more sa; sizes; inv] ++ (if seg then [seq; win] else []) ++ [svc].
Definition spec_unconfirmed (svc : Z) : list Z := [16; svc].
Definition spec_complex_ack (inv svc : Z) : list Z := [48; inv; svc].
Definition spec_simple_ack (inv svc : Z) : list Z := [32; inv; svc].

(** 16.10 Who-Is and I-Am *)
Definition spec_whois (lim : option (Z * Z)) : list Z :=
  spec_unconfirmed 8 ++
  match lim with Some (lo, hi) => spec_ctx_unsigned 0 lo ++ spec_ctx_unsigned 1 hi | None => [] end.
Definition spec_iam (i : iam) : list Z :=
  spec_unconfirmed 0 ++ spec_app (VOid (i_id i)) ++ spec_app (VUint (i_maxapdu i))
  ++ spec_app (VEnum (i_seg i)) ++ spec_app (VUint (i_vendor i)).

(** 6.4: I-Am-Router-To-Network carries a list of 2-octet network numbers *)
Definition spec_iam_router (nets : list Z) : list Z := [1; 128; 1] ++ flat_map (octets 2) nets.

(** 20.1.7: Error-PDU, error class and code as application enumerated; and the
    variant bracketed by context tag [t] used by some services *)
Definition spec_error (inv svc class code : Z) : list Z :=
  [80; inv; svc] ++ spec_app (VEnum class) ++ spec_app (VEnum code).
Definition spec_error_bracketed (t inv svc class code : Z) : list Z :=
  [80; inv; svc] ++ spec_open t ++ spec_app (VEnum class) ++ spec_app (VEnum code) ++ spec_close t.

(** in-range I-Am fields; the limits a Who-Is carries; network numbers of a list *)
Definition iam_ok (i : iam) : Prop :=
  valid_oid (i_id i) /\ in_u32 (i_maxapdu i) /\ in_u32 (i_seg i) /\ in_u32 (i_vendor i).
Definition whois_limits (low high : Z) : option (Z * Z) :=
  if (0 <=? low) && (0 <=? high) && (low <? 4194303) && (high <? 4194303) then Some (low, high) else None.
Definition nets_of (l : list address) : list Z := map a_net l.
