(** Model of the helper types: btypes (devices, object maps, priority arrays,
    services), helpers (addresses, validation, data access, store) and the UDP data
    link.  Texts are lists of character codes.  No proofs in this file. *)
From Coq Require Import String Ascii.
From Verif Require Export ModelClient.
Open Scope Z_scope.

Definition text := list Z.
(** literals of the source *)
Definition txt (s : string) : text := map (fun a => Z.of_N (N_of_ascii a)) (list_ascii_of_string s).
Fixpoint text_eqb (a b : text) : bool :=
  match a, b with
  | [], [] => true
  | x :: a', y :: b' => (x =? y) && text_eqb a' b'
  | _, _ => false
  end.

(** * Numbers and addresses as texts *)
(** fmt.Sprintf("%d", n); a number has at most log2 n + 1 digits *)
Fixpoint digits_fuel (f : nat) (n : Z) : text :=
  match f with
  | O => []
  | S f' => if n <? 10 then [48 + n] else digits_fuel f' (n / 10) ++ [48 + n mod 10]
  end.
Definition digits (n : Z) : text := digits_fuel (S (Z.to_nat (Z.log2 n))) n.
Definition sprint_d (n : Z) : text := if n <? 0 then 45 :: digits (- n) else digits n.
(** net.IP.String for four octets and for nil *)
Definition nil_text : text := txt "<nil>".
Definition dotted (l : list Z) : text :=
  match l with
  | [a; b; c; d] => digits a ++ 46 :: digits b ++ 46 :: digits c ++ 46 :: digits d
  | _ => nil_text
  end.
(** strings.Split by one character *)
Fixpoint split (c : Z) (s : text) : list text :=
  match s with
  | [] => [[]]
  | x :: s' => if x =? c then [] :: split c s'
               else match split c s' with f :: r => (x :: f) :: r | [] => [[x]] end
  end.
Definition is_digit (x : Z) : bool := (48 <=? x) && (x <=? 57).
Definition number (s : text) : Z := fold_left (fun v x => v * 10 + (x - 48)) s 0.
(** one field of net.ParseIP on an IPv4 text: decimal digits, at most 255, no
    leading zero (Go 1.17) *)
Definition ip_field (s : text) : option Z :=
  match s with
  | [] => None
  | x :: r => if forallb is_digit s && (number s <=? 255) && (negb (x =? 48) || (zlen r =? 0)) then Some (number s) else None
  end.
(** net's parseIPv4 (net/ip.go of the standard library, Go 1.17): four octets *)
Definition parseIPv4 (s : text) : option (list Z) :=
  match split 46 s with
  | [a; b; c; d] =>
    match ip_field a, ip_field b, ip_field c, ip_field d with
    | Some a, Some b, Some c, Some d => Some [a; b; c; d]
    | _, _, _, _ => None
    end
  | _ => None
  end.

(** net's xtoi: the leading hexadecimal digits, and what follows *)
Definition hex_digit (x : Z) : option Z :=
  if is_digit x then Some (x - 48)
  else if (97 <=? x) && (x <=? 102) then Some (x - 87)
  else if (65 <=? x) && (x <=? 70) then Some (x - 55)
  else None.
Fixpoint hex_run (s : text) : list Z * text :=
  match s with
  | [] => ([], [])
  | x :: s' => match hex_digit x with Some d => let (ds, r) := hex_run s' in (d :: ds, r) | None => ([], s) end
  end.
Definition hex_number (ds : list Z) : Z := fold_left (fun v d => v * 16 + d) ds 0.
(** net's parseIPv6 (net/ip.go, Go 1.17), the loop: at most [k] more groups; [acc] the
    octets so far, [ell] where the ellipsis is.  The result: these and the text left. *)
Fixpoint groups6 (k : nat) (acc : list Z) (ell : option nat) (s : text) : option (list Z * option nat * text) :=
  match k with
  | O => Some (acc, ell, s)
  | S k' =>
    let (ds, r) := hex_run s in
    let n := hex_number ds in
    if (zlen ds =? 0) || (65535 <? n) then None
    else match r with
    | [] => Some (acc ++ [n / 256; n mod 256], ell, [])
    | c :: r =>
      if c =? 46 then
        if match ell with None => negb (zlen acc =? 12) | Some _ => 12 <? zlen acc end then None
        else match parseIPv4 s with Some v4 => Some (acc ++ v4, ell, []) | None => None end
      else if negb (c =? 58) then None
      else match r with
      | [] => None
      | c :: r' =>
        let acc := acc ++ [n / 256; n mod 256] in
        if c =? 58 then
          match ell, r' with
          | Some _, _ => None
          | None, [] => Some (acc, Some (length acc), [])
          | None, _ => groups6 k' acc (Some (length acc)) r'
          end
        else groups6 k' acc ell r
      end
    end
  end.
(** net's parseIPv6: sixteen octets *)
Definition parseIPv6 (s : text) : option (list Z) :=
  let (ell, s) := match s with
                  | x :: y :: r => if (x =? 58) && (y =? 58) then (Some O, r) else (None, s)
                  | _ => (None, s)
                  end in
  match ell, s with
  | Some _, [] => Some (repeat 0 16)
  | _, _ =>
    match groups6 8 [] ell s with
    | Some (acc, ell, []) =>
      match ell with
      | Some e => if (length acc <? 16)%nat then Some (firstn e acc ++ repeat 0 (16 - length acc) ++ skipn e acc) else None
      | None => if (length acc <? 16)%nat then None else Some acc
      end
    | _ => None
    end
  end.
(** net.ParseIP (net/ip.go, Go 1.17): the first '.' or ':' decides.  Four octets stand
    for the sixteen of an IPv4 text, which begin with the IPv4-in-IPv6 prefix. *)
Fixpoint ip_kind (s : text) : option bool :=
  match s with
  | [] => None
  | x :: s' => if x =? 46 then Some false else if x =? 58 then Some true else ip_kind s'
  end.
Definition ParseIP (s : text) : option (list Z) :=
  match ip_kind s with None => None | Some false => parseIPv4 s | Some true => parseIPv6 s end.

(** helpers/ipbytes/ip.go:12-16: To4 of nil is nil, and SetBytes of nil gives 0 *)
Definition ip4toInt (ip : option (list Z)) : Z :=
  match ip with
  | Some l => match To4 l with Some v4 => fold_left (fun v x => v * 256 + x) v4 0 | None => 0 end
  | None => 0
  end.
(** helpers/ipbytes/ip.go:18-26 *)
Definition pack32BinaryIP4 (s : text) : list Z := be32 (u32 (ip4toInt (ParseIP s))).
(** helpers/ipbytes/ip.go:33-41; writing to a buffer never fails *)
Definition ip2bytes (s : text) (port : Z) : list Z := pack32BinaryIP4 s ++ be16 port.

(** * Validation *)
(** the regular expressions of helpers/validation/vaildation.go: alternatives of
    sequences of repeated character ranges, anchored at both ends *)
Record rx_item := mkRx { rx_lo : Z; rx_hi : Z; rx_min : nat; rx_max : nat }.
Fixpoint rx_seq (its : list rx_item) (s : text) : bool :=
  match its with
  | [] => match s with [] => true | _ => false end
  | i :: its' =>
    existsb (fun k => (k <=? length s)%nat
                      && forallb (fun x => (rx_lo i <=? x) && (x <=? rx_hi i)) (firstn k s)
                      && rx_seq its' (skipn k s))
            (seq (rx_min i) (rx_max i - rx_min i + 1))
  end.
Definition chr (c : Z) : rx_item := mkRx c c 1 1.
Definition rng (lo hi : Z) (min max : nat) : rx_item := mkRx (48 + lo) (48 + hi) min max.
(** helpers/validation/vaildation.go:22 *)
Definition port_rx : list (list rx_item) :=
  [ [chr 54; chr 53; chr 53; chr 51; rng 0 5 1 1];
    [chr 54; chr 53; chr 53; rng 0 2 1 1; rng 0 9 1 1];
    [chr 54; chr 53; rng 0 4 1 1; rng 0 9 2 2];
    [chr 54; rng 0 4 1 1; rng 0 9 3 3];
    [rng 1 5 1 1; rng 0 9 4 4];
    [rng 0 5 0 5];
    [rng 0 9 1 4] ].
(** helpers/validation/vaildation.go:20-27 *)
Definition ValidPort (port : Z) : bool := existsb (fun r => rx_seq r (sprint_d port)) port_rx.

(** net.ParseCIDR (net/ip.go, Go 1.17): the address, four or sixteen octets, and the
    length of the mask *)
Fixpoint cut (c : Z) (s : text) : option (text * text) :=
  match s with
  | [] => None
  | x :: s' => if x =? c then Some ([], s')
               else match cut c s' with Some (a, b) => Some (x :: a, b) | None => None end
  end.
Definition ParseCIDR (s : text) : option (list Z * Z) :=
  match cut 47 s with
  | None => None
  | Some (a, m) =>
    match match parseIPv4 a with Some ip => Some ip | None => parseIPv6 a end, m with
    | Some ip, _ :: _ => if forallb is_digit m && (number m <=? 8 * zlen ip) then Some (ip, number m) else None
    | _, _ => None
    end
  end.
(** strings.HasSuffix with strings.TrimSuffix: None = does not end so *)
Definition trim_suffix (t s : text) : option text :=
  if text_eqb (skipn (length s - length t) s) t then Some (firstn (length s - length t) s) else None.
(** helpers/validation/vaildation.go:35-45 *)
Definition NormaliseIPAddr (ip : text) : text :=
  match trim_suffix (txt "/32") ip with
  | Some a => if existsb (Z.eqb 46) ip then a else match trim_suffix (txt "/128") ip with Some a => a | None => ip end
  | None => match trim_suffix (txt "/128") ip with Some a => a | None => ip end
  end.
(** helpers/validation/vaildation.go:30-33 *)
Definition ValidIP (ip : text) : bool := match ParseIP (NormaliseIPAddr ip) with Some _ => true | None => false end.
(** helpers/validation/vaildation.go:10-18 *)
Definition ValidCIDR (ip : text) (cidr : Z) : bool :=
  match ParseCIDR (ip ++ 47 :: sprint_d cidr) with Some _ => true | None => false end.

(** * Devices *)
(** btypes/device.go:19-35, the fields callers of this module set or read *)
Record bdevice := mkBD
  { bd_id : object_id; bd_deviceid : Z; bd_ip : text; bd_port : Z; bd_net : Z; bd_mac : Z;
    bd_maxapdu : Z; bd_seg : Z; bd_vendor : Z; bd_addr : address; bd_name : text; bd_vendorname : text }.
(** the part of it the client looks at *)
Definition as_device (d : bdevice) : device := mkDev (bd_id d) (bd_maxapdu d) (bd_addr d).
(** btypes/device.go:63-97; failed validation only prints, ip2bytes.New never fails *)
Definition NewBDevice (d : bdevice) : bdevice :=
  let port := if bd_port d =? 0 then 47808 else bd_port d in
  mkBD (mkOid 8 (oid_inst (bd_id d))) (bd_deviceid d) (bd_ip d) (bd_port d) (bd_net d) (bd_mac d)
    (bd_maxapdu d) (bd_seg d) (bd_vendor d)
    (mkAddr (u16 (bd_net d)) 0 0 (ip2bytes (bd_ip d) (u16 port)) [u8 (bd_mac d)])
    (bd_name d) (bd_vendorname d).

(** * Object maps *)
(** Go maps as association lists with one entry per key, in iteration order *)
Fixpoint mget {K V} (eqb : K -> K -> bool) (k : K) (m : list (K * V)) : option V :=
  match m with [] => None | (k', v) :: m' => if eqb k k' then Some v else mget eqb k m' end.
Fixpoint mset {K V} (eqb : K -> K -> bool) (k : K) (v : V) (m : list (K * V)) : list (K * V) :=
  match m with
  | [] => [(k, v)]
  | (k', v') :: m' => if eqb k k' then (k', v) :: m' else (k', v') :: mset eqb k v m'
  end.
Definition instances := list (Z * object).
Definition objectMap := list (Z * instances).
(** btypes/object.go:58-73 *)
Definition objTypeMap : list (Z * text) :=
  [(0, txt "AnalogInput"); (1, txt "AnalogOutput"); (2, txt "AnalogValue"); (3, txt "BinaryInput");
   (4, txt "BinaryOutput"); (5, txt "BinaryValue"); (8, txt "Device"); (10, txt "File");
   (15, txt "NotificationClass"); (19, txt "MultiStateValue"); (13, txt "MultiStateInput");
   (14, txt "MultiStateOutput"); (20, txt "TrendLog"); (40, txt "CharacterString")].
(** btypes/object.go:75-90 *)
Definition objStrTypeMap : list (text * Z) :=
  [(txt "AnalogInput", 0); (txt "AnalogOutput", 1); (txt "AnalogValue", 2); (txt "BinaryInput", 3);
   (txt "BinaryOutput", 4); (txt "BinaryValue", 5); (txt "Device", 8); (txt "File", 10);
   (txt "NotificationClass", 15); (txt "MultiStateValue", 19); (txt "MultiStateInput", 13);
   (txt "MultiStateOutput", 14); (txt "TrendLog", 20); (txt "CharacterString", 40)].
(** btypes/object.go:92-98 *)
Definition GetType (s : text) : Z := match mget text_eqb s objStrTypeMap with Some t => t | None => 0 end.
(** btypes/object.go:100-106 *)
Definition type_string (t : Z) : text :=
  match mget Z.eqb t objTypeMap with Some s => s | None => txt "Unknown (" ++ sprint_d t ++ txt ")" end.
(** the inner loop of both directions: btypes/object_map.go:26-28 and 45-47 *)
Definition add_all (sub : instances) (m : instances) : instances :=
  fold_left (fun m x => mset Z.eqb (fst x) (snd x) m) sub m.
(** btypes/object_map.go:19-31 up to json.Marshal *)
Definition marshal_map (om : objectMap) : list (text * instances) :=
  fold_left (fun m x =>
    let key := type_string (fst x) in
    let old := match mget text_eqb key m with Some s => s | None => [] end in
    mset text_eqb key (add_all (snd x) old) m) om [].
(** btypes/object_map.go:40-49 from json.Unmarshal on; the target map [om] is None
    when it is nil, and assigning into it panics *)
Definition unmarshal_map (om : option objectMap) (m : list (text * instances)) : res (option objectMap) :=
  match m, om with
  | [], _ => ROk om
  | _, None => RPanic
  | _, Some om =>
    ROk (Some (fold_left (fun o x =>
      let key := GetType (fst x) in
      let old := match mget Z.eqb key o with Some s => s | None => [] end in
      mset Z.eqb key (add_all (snd x) old) o) m om))
  end.

(** * Values of a property *)
(** helpers/data/data.go: the value of the first property.  ToArr and ToBitString
    index the property list without a check, the others return a zero value. *)
Definition first_value (d : property_data) : option value :=
  match o_props (pd_object d) with [] => None | p :: _ => Some (pr_data p) end.
(** helpers/data/data.go:18-25 *)
Definition ToArr (d : property_data) : res (bool * list value) :=
  match first_value d with
  | None => RPanic
  | Some (VList l) => ROk (true, l)
  | Some _ => ROk (false, [])
  end.
(** helpers/data/data.go:36-43 *)
Definition ToFloat32 (d : property_data) : bool * Z :=
  match first_value d with Some (VReal x) => (true, x) | _ => (false, 0) end.
(** helpers/data/data.go:63-70 *)
Definition ToStr (d : property_data) : bool * text :=
  match first_value d with Some (VString l) => (true, l) | _ => (false, []) end.
(** helpers/data/data.go:72-79 *)
Definition ToUint32 (d : property_data) : bool * Z :=
  match first_value d with Some (VUint n) => (true, n) | _ => (false, 0) end.

(** * Priority arrays *)
(** the IEEE-754 single nearest to an unsigned integer, ties to even: Go's
    float32(uint32) *)
Definition f32_of_u32 (n : Z) : Z :=
  if n <=? 0 then 0
  else
    let e := Z.log2 n in
    if e <=? 23 then (e + 127) * 8388608 + (n * 2 ^ (23 - e) - 8388608)
    else
      let s := e - 23 in
      let q := n / 2 ^ s in
      let r := n mod 2 ^ s in
      let h := 2 ^ (s - 1) in
      let q := if (h <? r) || ((r =? h) && Z.odd q) then q + 1 else q in
      (e + 127) * 8388608 + (q - 8388608).
(** btypes/priority/priority.go:66-83; a float32 by its bits, nil as None *)
Record pri := mkPri
  { P1 : option Z; P2 : option Z; P3 : option Z; P4 : option Z; P5 : option Z; P6 : option Z;
    P7 : option Z; P8 : option Z; P9 : option Z; P10 : option Z; P11 : option Z; P12 : option Z;
    P13 : option Z; P14 : option Z; P15 : option Z; P16 : option Z }.
Definition pri0 : pri := mkPri None None None None None None None None None None None None None None None None.
(** btypes/priority/priority.go:27-61 *)
Definition pri_set (i : nat) (v : option Z) (p : pri) : pri :=
  let '(mkPri p1 p2 p3 p4 p5 p6 p7 p8 p9 p10 p11 p12 p13 p14 p15 p16) := p in
  match i with
  | 0%nat => mkPri v p2 p3 p4 p5 p6 p7 p8 p9 p10 p11 p12 p13 p14 p15 p16
  | 1%nat => mkPri p1 v p3 p4 p5 p6 p7 p8 p9 p10 p11 p12 p13 p14 p15 p16
  | 2%nat => mkPri p1 p2 v p4 p5 p6 p7 p8 p9 p10 p11 p12 p13 p14 p15 p16
  | 3%nat => mkPri p1 p2 p3 v p5 p6 p7 p8 p9 p10 p11 p12 p13 p14 p15 p16
  | 4%nat => mkPri p1 p2 p3 p4 v p6 p7 p8 p9 p10 p11 p12 p13 p14 p15 p16
  | 5%nat => mkPri p1 p2 p3 p4 p5 v p7 p8 p9 p10 p11 p12 p13 p14 p15 p16
  | 6%nat => mkPri p1 p2 p3 p4 p5 p6 v p8 p9 p10 p11 p12 p13 p14 p15 p16
  | 7%nat => mkPri p1 p2 p3 p4 p5 p6 p7 v p9 p10 p11 p12 p13 p14 p15 p16
  | 8%nat => mkPri p1 p2 p3 p4 p5 p6 p7 p8 v p10 p11 p12 p13 p14 p15 p16
  | 9%nat => mkPri p1 p2 p3 p4 p5 p6 p7 p8 p9 v p11 p12 p13 p14 p15 p16
  | 10%nat => mkPri p1 p2 p3 p4 p5 p6 p7 p8 p9 p10 v p12 p13 p14 p15 p16
  | 11%nat => mkPri p1 p2 p3 p4 p5 p6 p7 p8 p9 p10 p11 v p13 p14 p15 p16
  | 12%nat => mkPri p1 p2 p3 p4 p5 p6 p7 p8 p9 p10 p11 p12 v p14 p15 p16
  | 13%nat => mkPri p1 p2 p3 p4 p5 p6 p7 p8 p9 p10 p11 p12 p13 v p15 p16
  | 14%nat => mkPri p1 p2 p3 p4 p5 p6 p7 p8 p9 p10 p11 p12 p13 p14 v p16
  | 15%nat => mkPri p1 p2 p3 p4 p5 p6 p7 p8 p9 p10 p11 p12 p13 p14 p15 v
  | _ => p
  end.
(** btypes/priority/priority.go:13-62: a nil value panics in typeOf.Name(), any
    value but Null and uint32 in the type assertion (both branches assert uint32) *)
Fixpoint pri_loop (i : nat) (vs : list value) (p : pri) : res pri :=
  match vs with
  | [] => ROk p
  | VNull :: vs' => pri_loop (S i) vs' (pri_set i None p)
  | VUint n :: vs' => pri_loop (S i) vs' (pri_set i (Some (f32_of_u32 n)) p)
  | _ :: _ => RPanic
  end.
(** btypes/priority/priority.go:10-64; the object type makes no difference *)
Definition BuildFloat32 (d : property_data) (objType : Z) : res pri :=
  rbind (ToArr d) (fun r => pri_loop 0 (snd r) pri0).
(** btypes/priority/priority.go:85-135 *)
Definition HighestFloat32 (p : pri) : option Z :=
  let or a b := match a with Some _ => a | None => b end in
  or (P1 p) (or (P2 p) (or (P3 p) (or (P4 p) (or (P5 p) (or (P6 p) (or (P7 p) (or (P8 p)
  (or (P9 p) (or (P10 p) (or (P11 p) (or (P12 p) (or (P13 p) (or (P14 p) (or (P15 p) (or (P16 p) None))))))))))))))).

(** * Supported services *)
(** btypes/services/services.go:12-17 *)
Record service := mkService { sv_name : text; sv_number : Z; sv_index : Z }.
Definition mkSvc (n : string) (number index : Z) : service := mkService (txt n) number index.
(** btypes/services/services.go:19-285: the keys of supportedList; the value of a
    key is its own name *)
Definition supportedList : list service := [
  mkSvc "acknowledgeAlarm" 0 0;
  mkSvc "confirmedCOVNotification" 1 1;
  mkSvc "confirmedEventNotification" 2 2;
  mkSvc "getAlarmSummary" 3 3;
  mkSvc "getEnrollmentSummary" 4 4;
  mkSvc "subscribeCOV" 5 5;
  mkSvc "atomicReadFile" 6 6;
  mkSvc "atomicWriteFile" 7 7;
  mkSvc "addListElement" 8 8;
  mkSvc "removeListElement" 9 9;
  mkSvc "createObject" 10 10;
  mkSvc "deleteObject" 11 11;
  mkSvc "readProperty" 12 12;
  mkSvc "readPropertyMultiple" 14 13;
  mkSvc "writeProperty" 15 14;
  mkSvc "writePropertyMultiple" 16 15;
  mkSvc "deviceCommunicationControl" 17 16;
  mkSvc "confirmedPrivateTransfer" 18 17;
  mkSvc "confirmedTextMessage" 19 18;
  mkSvc "reinitializeDevice" 20 19;
  mkSvc "vtOpen" 21 20;
  mkSvc "vtClose" 22 21;
  mkSvc "vtData" 23 22;
  mkSvc "iAm" 26 23;
  mkSvc "iHave" 27 24;
  mkSvc "unconfirmedCOVNotification" 28 25;
  mkSvc "unconfirmedEventNotification" 29 26;
  mkSvc "unconfirmedPrivateTransfer" 30 27;
  mkSvc "unconfirmedTextMessage" 31 28;
  mkSvc "timeSynchronization" 32 29;
  mkSvc "whoHas" 33 30;
  mkSvc "whoIs" 34 31;
  mkSvc "readRange" 35 32;
  mkSvc "utcTimeSynchronization" 36 33;
  mkSvc "lifeSafetyOperation" 37 34;
  mkSvc "subscribeCOVProperty" 38 35;
  mkSvc "getEventInformation" 39 36;
  mkSvc "writeGroup" 40 37
]%string.
(** btypes/services/services.go:291-299; [order] is the iteration order of the map *)
Definition svc_GetType (order : list service) (s : text) : option service :=
  find (fun x => text_eqb s (sv_name x)) order.
(** btypes/services/services.go:301-307 *)
Definition svc_eqb (a b : service) : bool :=
  text_eqb (sv_name a) (sv_name b) && (sv_number a =? sv_number b) && (sv_index a =? sv_index b).
Definition svc_GetString (t : service) : text :=
  if existsb (svc_eqb t) supportedList then sv_name t else txt "Unknown (" ++ sv_name t ++ txt ")".

(** * UDP data link *)
(** datalink/udp.go:14-19: where it listens (None = a port chosen by the system) and
    its two addresses *)
Record link := mkLink { lk_port : option Z; lk_my : address; lk_bcast : address }.
Definition DefaultPort : Z := 47808.
(** net.CIDRMask, one octet *)
Definition mask_octet (n i : Z) : Z :=
  let k := n - 8 * i in
  if 8 <=? k then 255 else if k <=? 0 then 0 else 255 - Z.shiftr 255 k.
Definition mask (len n : Z) : list Z := map (mask_octet n) (zseq 0 (Z.to_nat len)).
Definition zip_with {A B C} (f : A -> B -> C) (a : list A) (b : list B) : list C :=
  map (fun x => f (fst x) (snd x)) (combine a b).
(** datalink/udp.go:60-86; [listen p] tells whether the socket can be opened on port
    p.  ":p" does not resolve for a port outside 0..65535; the error is dropped and
    the system chooses the port.  The broadcast address is made of the first four octets
    of the network (67-70); UDPToAddress panics on the nil To4 gives for an IPv6 address
    that is not IPv4-mapped (81, 125-130, 139-141). *)
Definition dataLink (listen : option Z -> bool) (ipAddr : text) (port : Z) : res (option link) :=
  let port := if port =? 0 then DefaultPort else port in
  match ParseCIDR ipAddr with
  | None => ROk None
  | Some (ip, n) =>
    let m := mask (zlen ip) n in
    let net := zip_with Z.land ip m in
    let broadcast := zip_with (fun a m => Z.lor a (Z.lxor 255 m)) (firstn 4 net) (firstn 4 m) in
    let p := if (0 <=? port) && (port <=? 65535) then Some port else None in
    if listen p then
      match To4 ip with
      | None => RPanic
      | Some v4 => ROk (Some (mkLink p (UDPToAddress v4 port) (UDPToAddress broadcast DefaultPort)))
      end
    else ROk None
  end.
(** datalink/udp.go:51-58 *)
Definition NewUDPDataLinkFromIP (listen : option Z -> bool) (addr : text) (subNet port : Z) : res (option link) :=
  dataLink listen (addr ++ 47 :: sprint_d subNet) port.
(** datalink/udp.go:150-177: [ifs] gives the addresses of an interface as the system
    reports them, None = no such interface; the first one that is an IPv4 address *)
Definition FindCIDRAddress (ifs : text -> option (list text)) (inter : text) : option text :=
  match ifs inter with
  | None => None
  | Some adrs =>
    find (fun adr => match ParseCIDR adr with
                     | Some (ip, _) => match To4 ip with Some _ => true | None => false end
                     | None => false
                     end) adrs
  end.
(** datalink/udp.go:27-43 *)
Definition NewUDPDataLink (ifs : text -> option (list text)) (listen : option Z -> bool) (inter : text) (port : Z) : res (option link) :=
  let port := if port =? 0 then DefaultPort else port in
  if existsb (Z.eqb 47) inter then dataLink listen inter port
  else match FindCIDRAddress ifs inter with None => ROk None | Some addr => dataLink listen addr port end.
(** device.go:45-52 *)
Record clientBuilder := mkCB { cb_iface : text; cb_ip : text; cb_port : Z; cb_subnet : Z; cb_maxpdu : Z }.
(** device.go:102-113: a client by its data link and receive buffer size; None = nil
    data link *)
Record client := mkClient { cl_link : option link; cl_maxpdu : Z }.
(** device.go:55-115: returns the client and whether the error is nil.  The
    validations have no effect. *)
Definition NewClient (ifs : text -> option (list text)) (listen : option Z -> bool) (cb : clientBuilder) : res (client * bool) :=
  let port := if cb_port cb =? 0 then DefaultPort else cb_port cb in
  let maxPDU := if cb_maxpdu cb =? 0 then MaxAPDU else cb_maxpdu cb in
  rbind (match cb_iface cb with
         | _ :: _ => NewUDPDataLink ifs listen (cb_iface cb) port
         | [] => NewUDPDataLinkFromIP listen (cb_ip cb) port (cb_subnet cb)
         end) (fun l =>
  ROk (mkClient l maxPDU, match l with Some _ => true | None => false end)).
