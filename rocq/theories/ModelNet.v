(** Model of package network and of the scan of cmd/cmd/discover.go.  The Who-Is
    exchange inside a call is given by its result (its frames and results are
    modelled in ModelClient); logging and printing are left out.  No proofs in this
    file. *)
From Verif Require Export ModelTypes.
Open Scope Z_scope.

(** network/device.go:9-22; the client is given separately by its environments *)
Record ndevice := mkND
  { nd_ip : text; nd_port : Z; nd_id : Z; nd_net : Z; nd_mac : Z; nd_maxapdu : Z; nd_seg : Z;
    nd_store : text; nd_name : text; nd_vendor : text; nd_dev : bdevice }.

(** * Networks, devices and the store *)
(** the kinds of values put into the store, by their contents *)
Inductive item := INet (storeID : text) | IDev (d : ndevice).
(** helpers/store/init.go: a go-cache without expiry *)
Definition handler := list (text * item).
(** helpers/store/init.go:23-26 *)
Definition store_Get (k : text) (h : handler) : option item := mget text_eqb k h.
(** helpers/store/init.go:31-33 *)
Definition store_Set (k : text) (v : item) (h : handler) : handler := mset text_eqb k v h.
(** a *Store: None = nil pointer; inside, BacStore (None = nil) *)
Definition store_ptr := option (option handler).
(** network/base.go:9-17: a network by its store id and its Store *)
Record network := mkNet { nw_id : text; nw_store : store_ptr }.

(** the btypes.Device built by network/device.go:31-38 and network/store.go:61-68 *)
Definition bdevice_of (d : ndevice) : bdevice :=
  mkBD (mkOid 0 0) (nd_id d) (nd_ip d) 0 (nd_net d) (nd_mac d) (nd_maxapdu d) (nd_seg d) 0 addr0 [] [].
Definition with_dev (d : ndevice) (b : bdevice) : ndevice :=
  mkND (nd_ip d) (nd_port d) (nd_id d) (nd_net d) (nd_mac d) (nd_maxapdu d) (nd_seg d) (nd_store d) (nd_name d) (nd_vendor d) b.
(** network/device.go:25-53: the device (None for a nil network) and the contents of
    the network's store afterwards; reading net.Store.BacStore panics on a nil Store *)
Definition NewDevice (net : option network) (d : ndevice) : res (option (ndevice * store_ptr)) :=
  match net with
  | None => ROk None
  | Some n =>
    let d := with_dev d (NewBDevice (bdevice_of d)) in
    match nw_store n with
    | None => RPanic
    | Some None => ROk (Some (d, Some None))
    | Some (Some h) => ROk (Some (d, Some (Some (store_Set (nd_store d) (IDev d) h))))
    end
  end.
(** network/base.go:20-38 once the client was created without error: None = the
    error "bacnet store is empty" *)
Definition New (n : network) : res (option network) :=
  match nw_store n with
  | None => RPanic
  | Some None => ROk None
  | Some (Some h) => ROk (Some (mkNet (nw_id n) (Some (Some (store_Set (nw_id n) (INet (nw_id n)) h)))))
  end.
(** network/store.go:25-47 once the client was created without error; the network it
    builds has no Store and no StoreID *)
Definition built_network : network := mkNet [] None.
Definition Store_NewNetwork (storeID : text) (s : option handler) : option handler * bool :=
  match s with
  | Some h => (Some (store_Set storeID (INet []) h), true)
  | None => (None, false)
  end.
(** network/store.go:49-56: None = not found, a device there panics; the result is
    the stored network *)
Definition GetNetwork (uuid : text) (h : handler) : res (option text) :=
  match store_Get uuid h with
  | None => ROk None
  | Some (INet i) => ROk (Some i)
  | Some (IDev _) => RPanic
  end.
(** network/store.go:59-83 *)
Definition UpdateDevice (storeID : text) (d : ndevice) (s : option handler) : ndevice * option handler :=
  let d := with_dev d (NewBDevice (bdevice_of d)) in
  (d, match s with Some h => Some (store_Set storeID (IDev d) h) | None => None end).
(** network/store.go:85-92 *)
Definition GetDevice (uuid : text) (h : handler) : res (option ndevice) :=
  match store_Get uuid h with
  | None => ROk None
  | Some (IDev d) => ROk (Some d)
  | Some (INet _) => RPanic
  end.

(** * Reads *)
(** calls in sequence; errors are returned as they are *)
Definition nbind {A B} (m : call A) (k : A -> call B) : call B :=
  let '(tr, r) := m in
  match r with
  | COk a => let '(tr', r') := k a in (tr ++ tr', r')
  | CErr e => (tr, CErr e)
  | CPanic => (tr, CPanic)
  | CDiverge => (tr, CDiverge)
  end.
Definition nret {A} (a : A) : call A := ([], COk a).
(** a call whose error is ignored: the caller goes on with the zero PropertyData
    ReadProperty returns beside it (readprop.go:18,35,55,76) *)
Definition zeroPD : property_data := mkPD (mkObj [] [] (mkOid 0 0) []).
Definition ignoring (c : call property_data) : call property_data :=
  (fst c, match snd c with CErr _ => COk zeroPD | r => r end).
(** network/read.go:8-13 *)
Record nobject := mkNO { no_inst : Z; no_type : Z; no_prop : Z; no_index : Z }.
(** network/read.go:15-47; an answer without properties is returned like any other *)
Definition Read (e : env) (me : option address) (d : ndevice) (obj : option nobject) : call property_data :=
  match obj with
  | None => ([], CErr CNoData)
  | Some o => ReadProperty e me (as_device (nd_dev d))
                (mkPD (mkObj [] [] (mkOid (no_type o) (no_inst o)) [mkProp (no_prop o) (no_index o) VNil 0]))
  end.
(** network/strings.go:9-15 *)
Definition ReadString (e : env) (me : option address) (d : ndevice) (obj : option nobject) : call text :=
  nbind (Read e me d obj) (fun r => nret (snd (ToStr r))).
(** network/strings.go:17-29 *)
Definition ReadDeviceName (e : env) (me : option address) (d : ndevice) (id : Z) : call text :=
  nbind (Read e me d (Some (mkNO id 8 77 ArrayAll))) (fun r => nret (snd (ToStr r))).
(** network/points.go:12-20 *)
Record point := mkPoint { pt_inst : Z; pt_type : Z; pt_prio : Z }.
(** network/strings.go:45-57 *)
Definition ReadPointName (e : env) (me : option address) (d : ndevice) (p : point) : call text :=
  nbind (Read e me d (Some (mkNO (pt_inst p) (pt_type p) 77 ArrayAll))) (fun r => nret (snd (ToStr r))).
(** network/points.go:69-85 *)
Definition PointReadFloat32 (e : env) (me : option address) (d : ndevice) (p : point) : call Z :=
  nbind (Read e me d (Some (mkNO (pt_inst p) (pt_type p) 85 ArrayAll))) (fun r => nret (snd (ToFloat32 r))).
(** network/points.go:88-105 *)
Definition PointReadPriority (e : env) (me : option address) (d : ndevice) (p : point) : call pri :=
  nbind (Read e me d (Some (mkNO (pt_inst p) (pt_type p) 87 ArrayAll))) (fun r =>
  match BuildFloat32 r (pt_type p) with ROk x => nret x | RPanic => ([], CPanic) end).
(** network/points.go:108-124 *)
Definition PointReadBool (e : env) (me : option address) (d : ndevice) (p : point) : call Z :=
  nbind (Read e me d (Some (mkNO (pt_inst p) (pt_type p) 85 ArrayAll))) (fun r => nret (snd (ToUint32 r))).
(** network/points.go:127-143 *)
Definition PointReadMultiState (e : env) (me : option address) (d : ndevice) (p : point) : call Z :=
  nbind (Read e me d (Some (mkNO (pt_inst p) (pt_type p) 85 ArrayAll))) (fun r => nret (snd (ToUint32 r))).

(** * Writes *)
(** network/write.go:11-18 *)
Record nwrite := mkNW { nw_inst : Z; nw_type : Z; nw_prop : Z; nw_value : value; nw_null : bool; nw_prio : Z }.
(** network/write.go:20-72; CWrongType = "unable to handle a type" *)
Definition Write (e : env) (me : option address) (d : ndevice) (w : nwrite) : call unit :=
  let send v := WriteProperty e me (as_device (nd_dev d))
                  (mkPD (mkObj [] [] (mkOid (nw_type w) (nw_inst w)) [mkProp (nw_prop w) ArrayAll v (nw_prio w)])) in
  if nw_null w then send VNull
  else match nw_value w with
       | VUint _ | VReal _ | VDouble _ | VString _ => send (nw_value w)
       | _ => ([], CErr CWrongType)
       end.
(** network/points.go:146-165; CWrongType stands for both argument errors *)
Definition PointReleasePriority (e : env) (me : option address) (d : ndevice) (p : option point) (prio : Z) : call unit :=
  match p with
  | None => ([], CErr CWrongType)
  | Some p => if (16 <? prio) || (prio <? 1) then ([], CErr CWrongType)
              else Write e me d (mkNW (pt_inst p) (pt_type p) 85 VNil true prio)
  end.
(** network/points.go:172-188 *)
Definition PointWriteAnalogue (e : env) (me : option address) (d : ndevice) (p : point) (v : Z) : call unit :=
  Write e me d (mkNW (pt_inst p) (pt_type p) 85 (VReal v) false (pt_prio p)).
(** network/points.go:191-207 *)
Definition PointWriteBool (e : env) (me : option address) (d : ndevice) (p : point) (v : Z) : call unit :=
  Write e me d (mkNW (pt_inst p) (pt_type p) 85 (VUint v) false (pt_prio p)).
(** network/points.go:210-226 *)
Definition PointWriteMultiState (e : env) (me : option address) (d : ndevice) (p : point) (v : Z) : call unit :=
  Write e me d (mkNW (pt_inst p) (pt_type p) 85 (VUint v) false (pt_prio p)).
(** network/strings.go:31-43 *)
Definition WriteDeviceName (e : env) (me : option address) (d : ndevice) (id : Z) (s : text) : call unit :=
  Write e me d (mkNW id 8 77 (VString s) false 0).
(** network/strings.go:59-72 *)
Definition WritePointName (e : env) (me : option address) (d : ndevice) (p : point) (s : text) : call unit :=
  Write e me d (mkNW (pt_inst p) (pt_type p) 77 (VString s) false 0).

(** * Device details *)
(** network/discover.go:44-50 *)
Record details := mkDetails
  { dt_name : text; dt_maxapdu : Z; dt_vendor : text; dt_seg : Z; dt_services : option bitstring }.
Definition details0 : details := mkDetails [] 0 [] 0 None.
(** network/discover.go:63, network/whois.go:52 *)
Definition detail_props : list Z := [77; 62; 121; 107].
(** network/discover.go:70-81, network/whois.go:58-74; the last case (property 97)
    is not among the properties read *)
Definition set_detail (p : Z) (r : property_data) (x : details) : details :=
  if p =? 77 then mkDetails (snd (ToStr r)) (dt_maxapdu x) (dt_vendor x) (dt_seg x) (dt_services x)
  else if p =? 62 then mkDetails (dt_name x) (snd (ToUint32 r)) (dt_vendor x) (dt_seg x) (dt_services x)
  else if p =? 121 then mkDetails (dt_name x) (dt_maxapdu x) (snd (ToStr r)) (dt_seg x) (dt_services x)
  else if p =? 107 then mkDetails (dt_name x) (dt_maxapdu x) (dt_vendor x) (snd (ToUint32 r)) (dt_services x)
  else x.
(** the loop of both functions: [read k p] is the k-th call *)
Fixpoint details_loop (read : nat -> Z -> call property_data) (k : nat) (ps : list Z) (x : details) : call details :=
  match ps with
  | [] => nret x
  | p :: ps' => nbind (ignoring (read k p)) (fun r => details_loop read (S k) ps' (set_detail p r x))
  end.
(** network/discover.go:55-86; the error is always nil *)
Definition GetDeviceDetails (k : nat) (envs : nat -> env) (me : option address) (d : ndevice) (id : Z) : call details :=
  details_loop (fun k p => Read (envs k) me d (Some (mkNO id 8 p ArrayAll))) k detail_props details0.
(** network/whois.go:50-98 *)
Definition net_GetDeviceDetails (k : nat) (envs : nat -> env) (me : option address) (d : bdevice) : call details :=
  details_loop (fun k p => ReadProperty (envs k) me (as_device d)
                             (mkPD (mkObj [] [] (mkOid 8 (u32 (bd_deviceid d))) [mkProp p ArrayAll VNil 0]))) k detail_props details0.

(** * Discovery *)
(** what WhoIs returned: whois.go:95-111 as a btypes.Device *)
Definition bdevice_of_found (f : found) : bdevice :=
  mkBD (f_id f) (f_deviceid f) (match f_ipport f with Some (ip, _) => dotted ip | None => [] end)
    (match f_ipport f with Some (_, p) => p | None => 0 end) (f_netnum f) (f_macmstp f)
    (f_maxapdu f) (f_seg f) (f_vendor f) (f_addr f) [] [].
(** network/discover.go:94-112.  [append(devices, device)] appends the receiver's
    pointer: the result is a number of copies of it, and the receiver's fields. *)
Definition discovered (d : ndevice) (f : found) : ndevice :=
  mkND (match addr_UDPAddr (f_addr f) with Some (ip, _) => dotted ip | None => nil_text end) (nd_port d)
    (oid_inst (f_id f)) (a_net (f_addr f))
    (match a_adr (f_addr f) with a :: _ => a | [] => nd_mac d end) (f_maxapdu f) (f_seg f)
    (nd_store d) (nd_name d) (nd_vendor d) (nd_dev d).
Definition with_details (d : ndevice) (x : details) : ndevice :=
  mkND (nd_ip d) (nd_port d) (nd_id d) (nd_net d) (nd_mac d) (nd_maxapdu d) (nd_seg d) (nd_store d) (dt_name x) (dt_vendor x) (nd_dev d).
Inductive ptr := Receiver.
Fixpoint discover_loop (k : nat) (envs : nat -> env) (me : option address) (ps : list ptr) (d : ndevice) (fs : list found)
  : call (list ptr * ndevice) :=
  match fs with
  | [] => nret (ps, d)
  | f :: fs' =>
    let d := discovered d f in
    nbind (GetDeviceDetails k envs me d (oid_inst (f_id f))) (fun x =>
    discover_loop (k + 4) envs me (ps ++ [Receiver]) (with_details d x) fs')
  end.
(** network/discover.go:88-120; [w] is the result of device.Whois *)
Definition DeviceDiscover (envs : nat -> env) (me : option address) (d : ndevice) (w : cerr + list found)
  : call (list ptr * ndevice) :=
  match w with inl e => ([], CErr e) | inr fs => discover_loop 0 envs me [] d fs end.
(** what the caller sees through the returned pointers *)
Definition deref (r : list ptr * ndevice) : list ndevice := map (fun p => match p with Receiver => snd r end) (fst r).

(** network/whois.go:26-46 *)
Definition net_details (b : bdevice) (x : details) : bdevice :=
  mkBD (bd_id b) (bd_deviceid b) (bd_ip b) (bd_port b) (bd_net b) (bd_mac b) (dt_maxapdu x) (dt_seg x) (bd_vendor b)
    (bd_addr b) (dt_name x) (dt_vendor x).
Fixpoint net_discover_loop (k : nat) (envs : nat -> env) (me : option address) (fs : list found) : call (list bdevice) :=
  match fs with
  | [] => nret []
  | f :: fs' =>
    let b := bdevice_of_found f in
    let build := NewBDevice (mkBD (mkOid 0 0) (bd_deviceid b) (bd_ip b) (bd_port b) (bd_net b) (bd_mac b) (bd_maxapdu b) (bd_seg b) 0 addr0 [] []) in
    nbind (net_GetDeviceDetails k envs me build) (fun x =>
    nbind (net_discover_loop (k + 4) envs me fs') (fun bs => nret (net_details b x :: bs)))
  end.
(** network/whois.go:22-48 *)
Definition NetworkDiscover (envs : nat -> env) (me : option address) (w : cerr + list found) : call (list bdevice) :=
  match w with inl e => ([], CErr e) | inr fs => net_discover_loop 0 envs me fs end.

(** * Objects and points of a device *)
(** network/objects.go:50-53: the type assertion panics on anything but an object
    identifier *)
Fixpoint oids (vs : list value) : option (list object_id) :=
  match vs with
  | [] => Some []
  | VOid o :: vs' => match oids vs' with Some l => Some (o :: l) | None => None end
  | _ :: _ => None
  end.
(** network/objects.go:75-80 *)
Fixpoint builder_loop (k : nat) (envs : nat -> env) (me : option address) (d : ndevice) (id : Z) (is : list Z) : call (list object_id) :=
  match is with
  | [] => nret []
  | i :: is' =>
    nbind (ignoring (Read (envs k) me d (Some (mkNO id 8 76 (u32 i))))) (fun r =>
    match first_value r with
    | Some (VOid o) => nbind (builder_loop (S k) envs me d id is') (fun l => nret (o :: l))
    | _ => ([], CPanic)
    end)
  end.
(** network/objects.go:59-83 *)
Definition deviceObjectsBuilder (k : nat) (envs : nat -> env) (me : option address) (d : ndevice) (id : Z) : call (list object_id) :=
  nbind (Read (envs k) me d (Some (mkNO id 8 76 0))) (fun r =>
  builder_loop (S k) envs me d id (zseq 1 (Z.to_nat (snd (ToUint32 r))))).
(** network/objects.go:22-27 *)
Definition noted (d : ndevice) (id : Z) (fs : list found) : ndevice :=
  fold_left (fun d f => if oid_inst (f_id f) =? id
    then mkND (nd_ip d) (nd_port d) (nd_id d) (nd_net d) (nd_mac d) (f_maxapdu f) (f_seg f) (nd_store d) (nd_name d) (nd_vendor d) (nd_dev d)
    else d) fs d.
(** network/objects.go:31-54 *)
Definition object_list (k : nat) (envs : nat -> env) (me : option address) (d : ndevice) (id : Z) : call (list object_id) :=
  let '(tr, r) := Read (envs k) me d (Some (mkNO id 8 76 ArrayAll)) in
  match r with
  | CErr _ => let '(tr', r') := deviceObjectsBuilder (S k) envs me d id in (tr ++ tr', r')
  | COk out =>
    match o_props (pd_object out) with
    | [] => (tr, COk [])
    | _ => match ToArr out with
           | RPanic => (tr, CPanic)
           | ROk (_, vs) => (tr, match oids vs with Some l => COk l | None => CPanic end)
           end
    end
  | CPanic => (tr, CPanic)
  | CDiverge => (tr, CDiverge)
  end.
(** network/objects.go:12-55; [w] = None when checkAPDU is false, else the result of
    the Who-Is.  The receiver's fields change too. *)
Definition DeviceObjects (k : nat) (envs : nat -> env) (me : option address) (d : ndevice) (id : Z)
  (w : option (cerr + list found)) : call (list object_id * ndevice) :=
  match w with
  | Some (inl e) => ([], CErr e)
  | _ =>
    let d := match w with Some (inr fs) => noted d id fs | _ => d end in
    nbind (object_list k envs me d id) (fun l => nret (l, d))
  end.

(** network/points.go:26-33; the unit's name is represented by the 16-bit number it
    is looked up with (btypes/units: Unit is a uint16) *)
Record pointDetails := mkPD'
  { pd_name : text; pd_unit : Z; pd_unitname : option Z; pd_inst : Z; pd_type : Z; pd_typename : text }.
(** network/points.go:297-308 *)
Definition isPointBool (t : Z) : bool := (t =? 3) || (t =? 4) || (t =? 5).
(** network/points.go:36-62: one call for a binary point, two for the others *)
Definition PointDetails (k : nat) (envs : nat -> env) (me : option address) (d : ndevice) (p : point) : call pointDetails :=
  nbind (ignoring (Read (envs k) me d (Some (mkNO (pt_inst p) (pt_type p) 77 ArrayAll)))) (fun r =>
  let x := mkPD' (snd (ToStr r)) 0 None (pt_inst p) (pt_type p) (type_string (pt_type p)) in
  if isPointBool (pt_type p) then nret x
  else nbind (ignoring (Read (envs (S k)) me d (Some (mkNO (pt_inst p) (pt_type p) 117 ArrayAll)))) (fun r =>
       let u := snd (ToUint32 r) in
       nret (mkPD' (pd_name x) u (Some (u16 u)) (pd_inst x) (pd_type x) (pd_typename x)))).
(** network/discover.go:29-39 *)
Fixpoint points_loop (k : nat) (envs : nat -> env) (me : option address) (d : ndevice) (l : list object_id) : call (list pointDetails) :=
  match l with
  | [] => nret []
  | o :: l' =>
    if oid_type o =? 8 then points_loop k envs me d l'
    else nbind (PointDetails k envs me d (mkPoint (oid_inst o) (oid_type o) 0)) (fun x =>
         nbind (points_loop (k + (if isPointBool (oid_type o) then 1 else 2)) envs me d l') (fun xs => nret (x :: xs)))
  end.
(** network/discover.go:22-42; the k-th call after those of DeviceObjects uses
    environment [penvs k] *)
Definition GetDevicePoints (envs penvs : nat -> env) (me : option address) (d : ndevice) (id : Z) (w : cerr + list found)
  : call (list pointDetails) :=
  nbind (DeviceObjects 0 envs me d id (Some w)) (fun r => points_loop 0 penvs me (snd r) (fst r)).

(** * cmd/cmd/discover.go *)
(** cmd/cmd/discover.go:123-135: the (Low, High) of the Who-Is requests sent;
    dividing by a scan size of zero panics *)
Definition scan_ranges (scanSize : Z) : res (list (Z * Z)) :=
  if scanSize =? 0 then RPanic
  else ROk (map (fun i => (i * scanSize, i * scanSize)) (zseq 0 (Z.to_nat (MaxInstance / scanSize)))).

(** * Closing *)
(** device.go:285-301: what ClientClose closes.  log.Out is os.Stderr (logrus' default,
    an io.Closer), which is closed instead of the data link *)
Inductive closed := ClosedSocket | ClosedStderr.
Definition ClientClose (c : client) (closeLogs : bool) : list closed :=
  if closeLogs then [ClosedStderr]
  else match cl_link c with Some _ => [ClosedSocket] | None => [] end.
