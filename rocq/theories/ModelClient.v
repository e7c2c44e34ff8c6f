(** Model of the client: the send and receive paths of device.go and the calls of
    package bacnet.  No proofs in this file.

    The environment (network, scheduler, other devices, clock) is a parameter:
    [ev_id] is what tsm.ID returns, [ev_att k frame] what happens to the k-th
    transmission (k = 0, 1, ...) of datagram [frame] within a call.  Logging,
    context timeouts as durations, and the goroutine around Send in WhoIs are not
    modelled. *)
From Verif Require Export ModelDec.

(** * Addresses *)
(** btypes/address.go:16-17 *)
Definition GlobalBroadcast : Z := 65535.
(** btypes/address.go:20-25 *)
Definition addr_IsBroadcast (a : address) : bool := (a_net a =? GlobalBroadcast) || (a_maclen a =? 0).
(** btypes/address.go:28-33 *)
Definition addr_SetLength (a : address) : address :=
  if 0 <? zlen (a_adr a) then mkAddr (a_net a) 1 (a_maclen a) (a_mac a) (a_adr a) else a.
(** btypes/address.go:35-41; uint8(len) *)
Definition addr_SetBroadcast (b : bool) (a : address) : address :=
  mkAddr (a_net a) (a_len a) (if b then 0 else u8 (zlen (a_mac a))) (a_mac a) (a_adr a).
(** btypes/address.go:45-50 *)
Definition addr_IsSubBroadcast (a : address) : bool := (0 <? a_net a) && (a_len a =? 0).
(** btypes/address.go:53-58 *)
Definition addr_IsUnicast (a : address) : bool := a_maclen a =? 6.
(** btypes/address.go:61-71: IPv4 address and port; None = error "mac is too short" *)
Definition addr_UDPAddr (a : address) : option (list Z * Z) :=
  match a_mac a with
  | [p; q; r; s; h; l] => Some ([p; q; r; s], Z.lor (Z.shiftl h 8) l)
  | _ => None
  end.
(** net.IP.To4 of the standard library: a 4-byte IP is itself, a 16-byte
    IPv4-mapped one its last four bytes; None = nil *)
Definition To4 (ip : list Z) : option (list Z) :=
  if zlen ip =? 4 then Some ip
  else if (zlen ip =? 16) && forallb (Z.eqb 0) (firstn 10 ip) && forallb (Z.eqb 255) (firstn 2 (skipn 10 ip))
  then Some (skipn 12 ip) else None.
(** datalink/udp.go:132-148: IP of four bytes, port an int *)
Definition UDPToAddress (ip : list Z) (port : Z) : address :=
  let p := u16 port in
  mkAddr 0 0 6 (ip ++ [u8 (Z.shiftr p 8); u8 (Z.land p 255)]) [].

(** * Sending *)
(** device.go:243-246 *)
Record setBroadcastType := mkSBT { sb_set : bool; sb_func : Z }.
Record datagram := mkDgram { g_ip : list Z; g_port : Z; g_bytes : list Z }.
(** device.go:249-280, the bytes handed to the data link *)
Definition send_func (dest : address) (bt : option setBroadcastType) : Z :=
  let f := if 0 <? zlen (a_adr dest) then bfUnicast
           else if addr_IsBroadcast dest || addr_IsSubBroadcast dest then bfBroadcast
           else bfUnicast in
  match bt with Some b => if sb_set b then sb_func b else f | None => f end.
Definition send_frame (dest : address) (data : list Z) (bt : option setBroadcastType) : list Z :=
  ebuf (enc_BVLC (mkBvlc bvlcTypeBacnetIP (send_func dest bt) (u16 (4 + zlen data)) data) newEncoder).
(** device.go:282 with datalink/udp.go:114-121: None = no datagram is sent *)
Definition send_dgram (dest : address) (data : list Z) (bt : option setBroadcastType) : option datagram :=
  match addr_UDPAddr dest with
  | Some (ip, port) => Some (mkDgram ip port (send_frame dest data bt))
  | None => None
  end.

(** * Receiving *)
(** what is handed to a pending transaction: bytes or an error value *)
Inductive payload := PBytes (l : list Z) | PErr (class code : Z).
Inductive effect :=
| EDeliver (id : Z) (p : payload)              (* tsm.Send *)
| EPubNpdu (key : Z) (n : npdu)                (* utsm.Publish of a btypes.NPDU *)
| EPubNets (key : Z) (l : list address)        (* utsm.Publish of a []btypes.Address *)
| EPubIAm (key : Z) (i : iam).                 (* utsm.Publish of a btypes.IAm *)

(** device.go:177-188 *)
Definition iam_addr (src : address) (nsrc : option address) : address :=
  match nsrc with
  | None => src
  | Some s =>
    let a := if 0 <? a_net s then mkAddr (a_net s) (a_len src) (a_maclen src) (a_mac src) (a_adr src) else src in
    if 0 <? zlen (a_adr s) then mkAddr (a_net a) (a_len a) (a_maclen a) (a_mac a) (a_adr s) else a
  end.
Definition net_of (a : option address) : Z := match a with Some a => a_net a | None => 0 end.

(** device.go:131-241.  Result: the effects in order, and whether the handler
    panicked afterwards.  tsm.Send returning an error only ends the handler
    early; it is taken to succeed (see ModelTsm.v) except through [known], the
    set of ids that have a pending transaction. *)
Definition handle_apdu (known : Z -> bool) (src : address) (n : npdu) (d : dec) : (list effect * bool) * bool :=
  (* ((effects, panicked), returned early) *)
  let send := dbuf d in
  let '((a, err), d) := dec_APDU d in
  match err with
  | Some _ => (([], false), true)
  | None =>
    if p_type a =? pduUnconfirmed then
      if p_uservice a =? usvcIAm then
        match dec_IAm (newDecoder (p_raw a)) with
        | Panic | Fuel => (([], true), true)
        | Val (_, Some _) _ => (([], false), true)
        | Val (i, None) _ =>
          let i := mkIam (i_id i) (i_maxapdu i) (i_seg i) (i_vendor i) (iam_addr src (n_src n)) in
          (([EPubIAm (oid_inst (i_id i)) i], false), false)
        end
      else (([], false), false)
    else if (p_type a =? pduSimpleAck) || (p_type a =? pduComplexAck) || (p_type a =? pduConfirmed) then
      (([EDeliver (p_invoke a) (PBytes send)], false), negb (known (p_invoke a)))
    else if p_type a =? pduError then
      (([EDeliver (p_invoke a) (PErr (p_eclass a) (p_ecode a))], false), false)
    else (([], false), false)
  end.
Definition handleMsg (known : Z -> bool) (src : address) (b : list Z) : list effect * bool :=
  let '(h, d) := dec_BVLC (newDecoder b) in
  match derr d with
  | Some _ => ([], false)
  | None =>
    if (v_func h =? bfBroadcast) || (v_func h =? bfUnicast) || (v_func h =? bfForwarded) then
      let rest := skipn 4 b in
      let '((n, nets, err), d) := dec_NPDU d in
      match err with
      | Some _ => ([], false)
      | None =>
        let pubs :=
          if n_netmsg n then
            (if n_msgtype n =? ndpuNetworkIs then [EPubNpdu (net_of (n_src n)) n] else [])
            ++ (if n_msgtype n =? ndpuIamRouterToNetwork then [EPubNets (net_of (n_src n)) nets] else [])
          else [] in
        let '((eff, panicked), early) := handle_apdu known src n d in
        if panicked || early then (pubs ++ eff, panicked)
        else (pubs ++ eff, (v_func h =? bfForwarded) && (zlen rest <? 10))
      end
    else ([], false)
  end.

(** * Calls *)
Inductive cerr :=
| CNoId                       (* unable to get a transaction id *)
| CEnc (e : gerr)             (* the encoder reported an error *)
| CSend                       (* sending the datagram failed *)
| CTimeout                    (* tsm.Receive timed out *)
| CPdu (class code : Z)       (* the device answered with an Error PDU *)
| CDec (e : gerr)             (* the answer could not be decoded *)
| CTooLarge | CZeroApdu       (* refused because of the device's MaxApdu *)
| CNoData | CWrongType        (* objectlist.go: answer without the expected data *)
| CWrap (e : cerr).           (* fmt.Errorf("...: %v", err) *)

(** what happens to one transmission: the socket write result, then what
    tsm.Receive returns (None = time-out) *)
Record attempt := mkAtt { at_sent : bool; at_reply : option payload }.
Record env := mkEnv { ev_id : option Z; ev_att : nat -> datagram -> attempt }.

Inductive outcome (A : Type) := COk (a : A) | CErr (e : cerr) | CPanic | CDiverge.
Arguments COk {A} a. Arguments CErr {A} e. Arguments CPanic {A}. Arguments CDiverge {A}.
(** a call's datagrams in order, and its outcome *)
Definition call (A : Type) : Type := (list datagram * outcome A)%type.

(** the fields of btypes.Device used by package bacnet: btypes/device.go:20-36 *)
Record device := mkDev { dv_id : object_id; dv_maxapdu : Z; dv_addr : address }.

(** the network header of a request: readprop.go:23-31 and the same lines of
    writeprop.go, readmulti.go, writemulti.go *)
Definition request_npdu (dest : address) (me : option address) : npdu :=
  mkNpdu 1 (Some dest) me 0 false 0 true 0 255.

(** the head of an answer: dec.APDU and the class/code test *)
Definition check_apdu (d : dec) : option cerr * dec :=
  let '((a, err), d) := dec_APDU d in
  match err with
  | Some e => (Some (CDec e), d)
  | None => if negb (p_eclass a =? 0) || negb (p_ecode a =? 0)
            then (Some (CPdu (p_eclass a) (p_ecode a)), d) else (None, d)
  end.

(** one transmission and the wait for its answer; inr = the payload *)
Definition exchange (e : env) (k : nat) (dest : address) (data : list Z) : list datagram * (cerr + payload) :=
  match send_dgram dest data None with
  | None => ([], inl CSend)
  | Some g =>
    let a := ev_att e k g in
    if at_sent a then
      ([g], match at_reply a with None => inl CTimeout | Some p => inr p end)
    else ([g], inl CSend)
  end.

(** readprop.go:38-76, retryCount = 1 (const.go:4); [n] attempts left, [last] the
    error of the previous one *)
Fixpoint rp_loop (n k : nat) (e : env) (dest : address) (data : list Z) (last : cerr) : call property_data :=
  match n with
  | O => ([], CErr last)
  | S n' =>
    let '(tr, r) := exchange e k dest data in
    let retry err := let '(tr', r') := rp_loop n' (S k) e dest data err in (tr ++ tr', r') in
    match r with
    | inl err => retry err
    | inr (PErr c x) => (tr, CErr (CPdu c x))
    | inr (PBytes b) =>
      let '(err, d) := check_apdu (newDecoder b) in
      match err with
      | Some err => retry err
      | None =>
        match dec_ReadProperty d with
        | Panic => (tr, CPanic)
        | Fuel => (tr, CDiverge)
        | Val (Some out, None) d => (tr, match derr d with None => COk out | Some x => CErr (CDec x) end)
        | Val (_, Some err) _ => retry (CDec err)
        | Val (None, None) _ => retry CNoData
        end
      end
    end
  end.
Definition retryCount : nat := 1.
(** readprop.go:13-77; [me] is dataLink.GetMyAddress().  The initial error "go" is
    only seen if retryCount were 0. *)
Definition ReadProperty (e : env) (me : option address) (dev : device) (rp : property_data) : call property_data :=
  match ev_id e with
  | None => ([], CErr CNoId)
  | Some id =>
    let dest := addr_SetLength (dv_addr dev) in
    match enc_NPDU (request_npdu dest me) newEncoder with
    | RPanic => ([], CPanic)
    | ROk en =>
      match enc_ReadProperty (u8 id) rp en with
      | RPanic => ([], CPanic)
      | ROk (_, Some x) => ([], CErr (CEnc x))
      | ROk (en, None) => rp_loop retryCount 0 e dest (ebuf en) CNoData
      end
    end
  end.

(** writeprop.go:36-72 *)
Fixpoint wp_loop (n k : nat) (e : env) (dest : address) (data : list Z) (last : cerr) : call unit :=
  match n with
  | O => ([], CErr last)
  | S n' =>
    let '(tr, r) := exchange e k dest data in
    let retry err := let '(tr', r') := wp_loop n' (S k) e dest data err in (tr ++ tr', r') in
    match r with
    | inl err => retry err
    | inr (PErr c x) => (tr, CErr (CPdu c x))
    | inr (PBytes b) =>
      match fst (check_apdu (newDecoder b)) with
      | Some err => retry err
      | None => (tr, COk tt)
      end
    end
  end.
(** writeprop.go:11-73: the error returned by enc.WriteProperty is dropped, only
    enc.Error() is consulted *)
Definition WriteProperty (e : env) (me : option address) (dev : device) (wp : property_data) : call unit :=
  match ev_id e with
  | None => ([], CErr CNoId)
  | Some id =>
    let dest := addr_SetLength (dv_addr dev) in
    match enc_NPDU (request_npdu dest me) newEncoder with
    | RPanic => ([], CPanic)
    | ROk en =>
      match enc_WriteProperty (u8 id) wp en with
      | RPanic => ([], CPanic)
      | ROk (en, _) =>
        match eerr en with
        | Some x => ([], CErr (CEnc x))
        | None => wp_loop 2 0 e dest (ebuf en) CNoData
        end
      end
    end
  end.

Definition maxReattempt : nat := 2.
(** readmulti.go:59-107 with maxReattempt = 2; [fuel] bounds the ack decoder *)
Fixpoint rpm_loop (fuel n k : nat) (e : env) (dest : address) (data : list Z) (last : cerr)
  : call (list object) :=
  match n with
  | O => ([], CErr (CWrap last))
  | S n' =>
    let '(tr, r) := exchange e k dest data in
    let retry err := let '(tr', r') := rpm_loop fuel n' (S k) e dest data err in (tr ++ tr', r') in
    match r with
    | inl err => retry err
    | inr (PErr c x) => retry (CPdu c x)
    | inr (PBytes b) =>
      let '(err, d) := check_apdu (newDecoder b) in
      match err with
      | Some err => retry err
      | None =>
        match dec_ReadMultiplePropertyAck fuel d with
        | Panic => (tr, CPanic)
        | Fuel => (tr, CDiverge)
        | Val (objs, None) _ => (tr, COk objs)
        | Val (_, Some err) _ => retry (CDec err)
        end
      end
    end
  end.
(** readmulti.go:20-66, btypes/device.go:111-118 *)
Definition ReadMultiProperty (fuel : nat) (e : env) (me : option address) (dev : device)
  (rp : multiple_property_data) : call (list object) :=
  match ev_id e with
  | None => ([], CErr CNoId)
  | Some id =>
    let dest := addr_SetLength (dv_addr dev) in
    if dv_maxapdu dev =? 0 then ([], CErr CZeroApdu)
    else
    match enc_NPDU (request_npdu dest me) newEncoder with
    | RPanic => ([], CPanic)
    | ROk en =>
      match enc_ReadMultipleProperty (u8 id) rp en with
      | RPanic => ([], CPanic)
      | ROk (_, Some x) => ([], CErr (CEnc x))
      | ROk (en, None) =>
        if dv_maxapdu dev <? u32 (zlen (ebuf en)) then ([], CErr CTooLarge)
        else rpm_loop fuel maxReattempt 0 e dest (ebuf en) CNoData
      end
    end
  end.

(** writemulti.go:44-86 *)
Fixpoint wpm_loop (n k : nat) (e : env) (dest : address) (data : list Z) (last : cerr) : call unit :=
  match n with
  | O => ([], CErr (CWrap last))
  | S n' =>
    let '(tr, r) := exchange e k dest data in
    let retry err := let '(tr', r') := wpm_loop n' (S k) e dest data err in (tr ++ tr', r') in
    match r with
    | inl err => retry err
    | inr (PErr c x) => retry (CPdu c x)
    | inr (PBytes b) =>
      match fst (check_apdu (newDecoder b)) with
      | Some err => retry err
      | None => (tr, COk tt)
      end
    end
  end.
(** writemulti.go:12-53: no SetLength *)
Definition WriteMultiProperty (e : env) (me : option address) (dev : device) (wp : multiple_property_data)
  : call unit :=
  match ev_id e with
  | None => ([], CErr CNoId)
  | Some id =>
    let dest := dv_addr dev in
    match enc_NPDU (request_npdu dest me) newEncoder with
    | RPanic => ([], CPanic)
    | ROk en =>
      match enc_WriteMultiProperty (u8 id) wp en with
      | RPanic => ([], CPanic)
      | ROk (en, _) =>
        match eerr en with
        | Some x => ([], CErr (CEnc x))
        | None =>
          if dv_maxapdu dev <? u32 (zlen (ebuf en)) then ([], CErr CTooLarge)
          else wpm_loop maxReattempt 0 e dest (ebuf en) CNoData
        end
      end
    end
  end.

(** * Unconfirmed calls *)
(** iam.go:12-28: the encoder's error is ignored *)
Definition IAm_frame (dest : address) (i : iam) : res (option datagram) :=
  rbind (enc_NPDU (mkNpdu 1 (Some dest) None 0 false 0 false 0 255) newEncoder) (fun en =>
  rbind (enc_IAm i en) (fun r => ROk (send_dgram dest (ebuf (fst r)) None))).

(** whois.go:9-14 *)
Record whoIsOpts := mkWho { wh_low : Z; wh_high : Z; wh_global : bool; wh_net : Z }.
(** whois.go:21-47: the range used and the destination, from the data link's
    broadcast address *)
Definition whois_range (wh : whoIsOpts) : Z * Z :=
  ((if wh_low wh <=? 0 then 0 else wh_low wh), (if wh_high wh <=? 0 then 4194304 else wh_high wh)).
Definition whois_dest (bcast : address) (wh : whoIsOpts) : address :=
  mkAddr (if wh_global wh then GlobalBroadcast else wh_net wh) (a_len bcast) (a_maclen bcast) (a_mac bcast) (a_adr bcast).
Definition whois_frame (bcast : address) (me : option address) (wh : whoIsOpts) : res (option datagram) :=
  let dest := whois_dest bcast wh in
  let '(low, high) := whois_range wh in
  rbind (enc_NPDU (mkNpdu 1 (Some dest) me 0 false 0 false 0 255) newEncoder) (fun en =>
  ROk (send_dgram dest (ebuf (enc_WhoIs (i32 low) (i32 high) en)) None)).
(** whois.go:52-59: the ids subscribed to; low, high are never -1 here *)
Definition whois_sub (wh : whoIsOpts) : Z * Z := whois_range wh.

(** the published messages: utsm data is an interface{} *)
Inductive pub := PubNpdu (n : npdu) | PubNets (l : list address) | PubIAm (i : iam).
(** the fields of btypes.Device WhoIs fills in (whois.go:86-109); the dotted IP
    string is kept as its four bytes, None when the address has no UDP form *)
Record found := mkFound
  { f_id : object_id; f_deviceid : Z; f_addr : address; f_maxapdu : Z; f_seg : Z; f_vendor : Z;
    f_macmstp : Z; f_netnum : Z; f_ipport : option (list Z * Z) }.
Definition found_of (i : iam) : found :=
  mkFound (i_id i) (oid_inst (i_id i)) (i_addr i) (i_maxapdu i) (i_seg i) (i_vendor i)
    (match a_adr (i_addr i) with a :: _ => a | [] => 0 end) (a_net (i_addr i)) (addr_UDPAddr (i_addr i)).
(** whois.go:79-113: [seen] = keys of uniqueMap *)
Fixpoint whois_collect (seen : list Z) (vs : list pub) : list found :=
  match vs with
  | [] => []
  | PubIAm i :: vs' =>
    if existsb (Z.eqb (oid_inst (i_id i))) seen then whois_collect seen vs'
    else found_of i :: whois_collect (oid_inst (i_id i) :: seen) vs'
  | _ :: vs' => whois_collect seen vs'
  end.
(** whois.go:76-114 *)
Definition whois_result (vs : list pub) : list found := whois_collect [] vs.

(** whoisrouter.go:16-36 and whatnetwork.go:21-41 *)
Definition netmsg_frame (mt : Z) (bcast : address) (me : option address) : res (option datagram) :=
  rbind (enc_NPDU (mkNpdu 1 (Some bcast) me 0 true mt false 0 255) newEncoder) (fun en =>
  ROk (send_dgram bcast (ebuf en) (Some (mkSBT true bfBroadcast)))).
(** whoisrouter.go:45-55 *)
Definition whoisrouter_result (vs : list pub) : list address :=
  flat_map (fun v => match v with PubNets l => l | _ => [] end) vs.
(** whatnetwork.go:51-60; [r] is the zero NPDU when the assertion fails *)
Definition whatnetwork_result (vs : list pub) : list address :=
  flat_map (fun v => match v with PubNpdu n => match n_src n with Some a => [a] | None => [] end | _ => [] end) vs.

(** * Object lists: objectlist.go *)
Definition propObjectList : Z := 76.
Definition propObjectName : Z := 77.
Definition propDescription : Z := 28.
(** sequencing of calls: the k-th client call of Objects runs in environment
    [envs k]; the state is the number of calls made *)
Definition cbind {A B} (m : call A) (k : A -> call B) : call B :=
  let '(tr, r) := m in
  match r with
  | COk a => let '(tr', r') := k a in (tr ++ tr', r')
  | CErr e => (tr, CErr (CWrap e))
  | CPanic => (tr, CPanic)
  | CDiverge => (tr, CDiverge)
  end.
(** objectlist.go:8-35 *)
Definition objectListLen (e : env) (me : option address) (dev : device) : call Z :=
  cbind (ReadProperty e me dev (mkPD (mkObj [] [] (dv_id dev) [mkProp propObjectList 0 VNil 0])))
    (fun out => match o_props (pd_object out) with
                | [] => ([], CErr CNoData)
                | p :: _ => match pr_data p with VUint n => ([], COk n) | _ => ([], CErr CWrongType) end
                end).
(** [start, start+1, ...], n of them *)
Fixpoint zseq (start : Z) (n : nat) : list Z :=
  match n with O => [] | S n' => start :: zseq (start + 1) n' end.
(** objectlist.go:46-51 *)
Definition range_props (start stop : Z) : list property :=
  map (fun i => mkProp propObjectList (u32 i) VNil 0) (zseq start (Z.to_nat (stop - start + 1))).
(** objectlist.go:62-68 *)
Fixpoint ids_of (ps : list property) : option (list object_id) :=
  match ps with
  | [] => Some []
  | p :: ps' => match pr_data p with
                | VOid o => match ids_of ps' with Some l => Some (o :: l) | None => None end
                | _ => None
                end
  end.
(** objectlist.go:37-71 *)
Definition objectsRange (fuel : nat) (e : env) (me : option address) (dev : device) (start stop : Z)
  : call (list object_id) :=
  cbind (ReadMultiProperty fuel e me dev (mkMPD [mkObj [] [] (dv_id dev) (range_props start stop)]))
    (fun objs => match objs with
                 | [] => ([], CErr CNoData)
                 | o :: _ => match ids_of (o_props o) with
                             | Some l => ([], COk l)
                             | None => ([], CErr CWrongType)
                             end
                 end).

(** btypes.ObjectMap, a map from type and instance to objects, as an association
    list with one entry per identifier (objectlist.go:75-83) *)
Definition oid_eqb (a b : object_id) : bool := (oid_type a =? oid_type b) && (oid_inst a =? oid_inst b).
Fixpoint om_get (k : object_id) (m : list (object_id * object)) : option object :=
  match m with
  | [] => None
  | (k', o) :: m' => if oid_eqb k k' then Some o else om_get k m'
  end.
Fixpoint om_set (k : object_id) (o : object) (m : list (object_id * object)) : list (object_id * object) :=
  match m with
  | [] => [(k, o)]
  | (k', o') :: m' => if oid_eqb k k' then (k', o) :: m' else (k', o') :: om_set k o m'
  end.
Definition objectCopy (m : list (object_id * object)) (ids : list object_id) : list (object_id * object) :=
  fold_left (fun m id => om_set id (mkObj [] [] id []) m) ids m.

(** objectlist.go:73, 93-115 after the length is known: the chunks (start, end)
    requested.  Division by zero when scanSize = 0. *)
Definition readPropRequestSize : Z := 20.
Definition chunks (scanSize l : Z) : res (list (Z * Z)) :=
  if scanSize =? 0 then RPanic
  else let n := l / scanSize in
       ROk (map (fun i => (i * scanSize + 1, (i + 1) * scanSize)) (zseq 0 (Z.to_nat n))
            ++ (if n * scanSize + 1 <=? l then [(n * scanSize + 1, l)] else [])).
Fixpoint read_chunks (fuel k : nat) (envs : nat -> env) (me : option address) (dev : device)
  (cs : list (Z * Z)) (m : list (object_id * object)) : call (list (object_id * object)) :=
  match cs with
  | [] => ([], COk m)
  | (start, stop) :: cs' =>
    cbind (objectsRange fuel (envs k) me dev start stop)
      (fun ids => read_chunks fuel (S k) envs me dev cs' (objectCopy m ids))
  end.
(** objectlist.go:85-116; the number of calls made is 1 + the number of chunks *)
Definition objectList (fuel : nat) (envs : nat -> env) (me : option address) (dev : device)
  : call (nat * list (object_id * object)) :=
  cbind (objectListLen (envs O) me dev) (fun l =>
  match chunks (dv_maxapdu dev / readPropRequestSize) l with
  | RPanic => ([], CPanic)
  | ROk cs => cbind (read_chunks fuel 1 envs me dev cs [])
                (fun m => ([], COk (S (length cs), m)))
  end).

(** objectlist.go:122-148: maxStandardBacnetType = 128 (const.go:17) *)
Definition maxStandardBacnetType : Z := 128.
Definition info_keys (objs : list object) : list object_id :=
  map o_id (filter (fun o => oid_type (o_id o) <=? maxStandardBacnetType) objs).
Definition info_request (keys : list object_id) : multiple_property_data :=
  mkMPD (map (fun id => mkObj [] [] id [mkProp propObjectName ArrayAll VNil 0; mkProp propDescription ArrayAll VNil 0]) keys).
(** objectlist.go:153-169; [keys] has length len(objs): the requested keys, then
    zero identifiers.  dev.Objects[t][i] = obj on an absent type panics (nil map);
    on an absent instance it adds an entry. *)
Fixpoint set_info (keys : list object_id) (i : nat) (rs : list object) (m : list (object_id * object))
  : outcome (list (object_id * object)) :=
  match rs with
  | [] => COk m
  | r :: rs' =>
    match o_props r with
    | [] => CPanic
    | p0 :: ps =>
      match pr_data p0 with
      | VString name =>
        match ps with
        | [] => CPanic
        | p1 :: _ =>
          match pr_data p1 with
          | VString desc =>
            match nth_error keys i with
            | None => CPanic
            | Some k =>
              let old := match om_get k m with Some o => o | None => mkObj [] [] (mkOid 0 0) [] end in
              if existsb (fun e => oid_type (fst e) =? oid_type k) m
              then set_info keys (S i) rs' (om_set k (mkObj name desc (o_id old) (o_props old)) m)
              else CPanic
            end
          | _ => CErr CWrongType
          end
        end
      | _ => CErr CWrongType
      end
    end
  end.
(** objectlist.go:118-170 *)
Definition objectInformation (fuel : nat) (e : env) (me : option address) (dev : device)
  (objs : list object) (m : list (object_id * object)) : call (list (object_id * object)) :=
  let keys := info_keys objs in
  cbind (ReadMultiProperty fuel e me dev (info_request keys)) (fun rs =>
  ([], set_info (keys ++ repeat (mkOid 0 0) (length objs - length keys)) 0 rs m)).
(** objectlist.go:172-186, incrSize = 5 *)
Fixpoint all_info (n fuel k : nat) (envs : nat -> env) (me : option address) (dev : device)
  (objs : list object) (m : list (object_id * object)) : call (list (object_id * object)) :=
  match n with
  | O => ([], COk m)
  | S n' =>
    match objs with
    | [] => ([], COk m)
    | _ => cbind (objectInformation fuel (envs k) me dev (firstn 5 objs) m) (fun m =>
           all_info n' fuel (S k) envs me dev (skipn 5 objs) m)
    end
  end.
(** objectlist.go:193-203.  [order] is the order in which Go iterates over the
    object map (btypes/device.go:100-108): any permutation of its entries. *)
Definition Objects (fuel : nat) (order : list (object_id * object) -> list (object_id * object))
  (envs : nat -> env) (me : option address) (dev : device) : call (list (object_id * object)) :=
  cbind (objectList fuel envs me dev) (fun r =>
  let '(k, m) := r in
  let objs := map snd (order m) in
  all_info (length objs) fuel k envs me dev objs m).
