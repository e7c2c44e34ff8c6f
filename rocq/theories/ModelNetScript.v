(** * The scans of package network, on a client that others use as well

    The functions of [ModelNet] that make several requests, as sequences of requests
    without the answers, see [ModelScript].  They are used through [SpecScript]. *)
From Verif Require Import ModelClient ModelSystem ModelScript ModelNet.
Import ListNotations.
Open Scope Z_scope.

(** a function that goes on with whatever [s] returned *)
Fixpoint sthen {A B} (s : script A) (k : outcome A -> script B) : script B :=
  match s with SEnd r => k r | SCall rq c => SCall rq (fun x => sthen (c x) k) end.
(** as [nbind]: errors are returned as they are *)
Definition nsbind {A B} (s : script A) (k : A -> script B) : script B :=
  sthen s (fun r => match r with
                    | COk a => k a
                    | CErr e => SEnd (CErr e)
                    | CPanic => SEnd CPanic
                    | CDiverge => SEnd CDiverge
                    end).
(** as [ignoring] *)
Definition signoring (s : script property_data) : script property_data :=
  sthen s (fun r => SEnd match r with CErr _ => COk zeroPD | r => r end).
(** network/read.go:15-47 with an object that is not nil *)
Definition nread_script (d : ndevice) (o : nobject) : script property_data :=
  read_script (as_device (nd_dev d)) (mkPD (mkObj [] [] (mkOid (no_type o) (no_inst o)) [mkProp (no_prop o) (no_index o) VNil 0])).

(** network/discover.go:63-85, network/whois.go:52-97 *)
Fixpoint details_script (read : Z -> script property_data) (ps : list Z) (x : details) : script details :=
  match ps with
  | [] => SEnd (COk x)
  | p :: ps' => nsbind (signoring (read p)) (fun r => details_script read ps' (set_detail p r x))
  end.
(** network/discover.go:55-86 *)
Definition GetDeviceDetails_script (d : ndevice) (id : Z) : script details :=
  details_script (fun p => nread_script d (mkNO id 8 p ArrayAll)) detail_props details0.
(** network/whois.go:50-98 *)
Definition net_GetDeviceDetails_script (d : bdevice) : script details :=
  details_script (fun p => read_script (as_device d) (mkPD (mkObj [] [] (mkOid 8 (u32 (bd_deviceid d))) [mkProp p ArrayAll VNil 0]))) detail_props details0.
(** network/discover.go:88-120 after the Who-Is *)
Fixpoint discover_script (ps : list ptr) (d : ndevice) (fs : list found) : script (list ptr * ndevice) :=
  match fs with
  | [] => SEnd (COk (ps, d))
  | f :: fs' =>
    let d := discovered d f in
    nsbind (GetDeviceDetails_script d (oid_inst (f_id f))) (fun x => discover_script (ps ++ [Receiver]) (with_details d x) fs')
  end.
(** network/whois.go:22-48 after the Who-Is *)
Fixpoint net_discover_script (fs : list found) : script (list bdevice) :=
  match fs with
  | [] => SEnd (COk [])
  | f :: fs' =>
    let b := bdevice_of_found f in
    let build := NewBDevice (mkBD (mkOid 0 0) (bd_deviceid b) (bd_ip b) (bd_port b) (bd_net b) (bd_mac b) (bd_maxapdu b) (bd_seg b) 0 addr0 [] []) in
    nsbind (net_GetDeviceDetails_script build) (fun x =>
    nsbind (net_discover_script fs') (fun bs => SEnd (COk (net_details b x :: bs))))
  end.

(** network/objects.go:75-80 *)
Fixpoint builder_script (d : ndevice) (id : Z) (is : list Z) : script (list object_id) :=
  match is with
  | [] => SEnd (COk [])
  | i :: is' =>
    nsbind (signoring (nread_script d (mkNO id 8 76 (u32 i)))) (fun r =>
    match first_value r with
    | Some (VOid o) => nsbind (builder_script d id is') (fun l => SEnd (COk (o :: l)))
    | _ => SEnd CPanic
    end)
  end.
(** network/objects.go:59-83 *)
Definition deviceObjectsBuilder_script (d : ndevice) (id : Z) : script (list object_id) :=
  nsbind (nread_script d (mkNO id 8 76 0)) (fun r => builder_script d id (zseq 1 (Z.to_nat (snd (ToUint32 r))))).
(** network/objects.go:31-54 *)
Definition object_list_script (d : ndevice) (id : Z) : script (list object_id) :=
  sthen (nread_script d (mkNO id 8 76 ArrayAll)) (fun r =>
  match r with
  | CErr _ => deviceObjectsBuilder_script d id
  | COk out =>
    match o_props (pd_object out) with
    | [] => SEnd (COk [])
    | _ => SEnd match ToArr out with
                | RPanic => CPanic
                | ROk (_, vs) => match oids vs with Some l => COk l | None => CPanic end
                end
    end
  | CPanic => SEnd CPanic
  | CDiverge => SEnd CDiverge
  end).
(** network/objects.go:12-55 after the Who-Is, if there is one *)
Definition DeviceObjects_script (d : ndevice) (id : Z) (w : option (cerr + list found)) : script (list object_id * ndevice) :=
  match w with
  | Some (inl e) => SEnd (CErr e)
  | _ =>
    let d := match w with Some (inr fs) => noted d id fs | _ => d end in
    nsbind (object_list_script d id) (fun l => SEnd (COk (l, d)))
  end.
(** network/points.go:36-62 *)
Definition PointDetails_script (d : ndevice) (p : point) : script pointDetails :=
  nsbind (signoring (nread_script d (mkNO (pt_inst p) (pt_type p) 77 ArrayAll))) (fun r =>
  let x := mkPD' (snd (ToStr r)) 0 None (pt_inst p) (pt_type p) (type_string (pt_type p)) in
  if isPointBool (pt_type p) then SEnd (COk x)
  else nsbind (signoring (nread_script d (mkNO (pt_inst p) (pt_type p) 117 ArrayAll))) (fun r =>
       let u := snd (ToUint32 r) in
       SEnd (COk (mkPD' (pd_name x) u (Some (u16 u)) (pd_inst x) (pd_type x) (pd_typename x))))).
(** network/discover.go:29-39 *)
Fixpoint points_script (d : ndevice) (l : list object_id) : script (list pointDetails) :=
  match l with
  | [] => SEnd (COk [])
  | o :: l' =>
    if oid_type o =? 8 then points_script d l'
    else nsbind (PointDetails_script d (mkPoint (oid_inst o) (oid_type o) 0)) (fun x =>
         nsbind (points_script d l') (fun xs => SEnd (COk (x :: xs))))
  end.
(** network/discover.go:22-42 after the Who-Is *)
Definition GetDevicePoints_script (d : ndevice) (id : Z) (w : cerr + list found) : script (list pointDetails) :=
  nsbind (DeviceObjects_script d id (Some w)) (fun r => points_script (snd r) (fst r)).
