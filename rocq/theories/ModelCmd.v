(** Model of the property names of btypes/property.go and of the commands of cmd/cmd
    that read and write one property.  Printing is left out except for what the write
    command tells at its end; the client is the one NewClient returned, its calls are
    given by their environments.  No proofs in this file. *)
From Coq Require Import String.
From Verif Require Export ModelBits ModelNet.
Close Scope string_scope.
Open Scope list_scope.
Open Scope Z_scope.

(** * Property names *)
(** btypes/property.go:13-26, 546-560 *)
Definition propertyTypeMapping : list (text * Z) :=
  map (fun x => (txt (fst x), snd x))
  [("AllProperties", 8); ("Description", 28); ("FileSize", 42); ("FileType", 43); ("ModelName", 70); ("ObjectIdentifier", 75);
   ("ObjectList", 76); ("ObjectName", 77); ("ObjectReference", 78); ("ObjectType", 79); ("PresentValue", 85); ("Units", 117);
   ("PriorityArray", 87)]%string.
(** btypes/property.go:563-577 *)
Definition propertybtypestrMapping : list (Z * text) :=
  map (fun x => (fst x, txt (snd x)))
  [(8, "All Properties"); (28, "Description"); (42, "File Size"); (43, "File Type"); (70, "Model Name"); (75, "Object Identifier");
   (76, "Object List"); (77, "Object Name"); (78, "Object Reference"); (79, "Object Type"); (85, "Present Value"); (117, "PropUnits");
   (87, "Priority Array")]%string.
(** btypes/property.go:591-599 *)
Definition prop_Keys : list (text * Z) :=
  fold_left (fun m x => mset text_eqb (fst x) (snd x) m) propertyTypeMapping [].
(** btypes/property.go:601-607: the property, and whether the error is nil *)
Definition prop_Get (s : text) : Z * bool :=
  match mget text_eqb s propertyTypeMapping with Some v => (v, true) | None => (0, false) end.
(** btypes/property.go:610-616 *)
Definition prop_String (p : Z) : text :=
  match mget Z.eqb p propertybtypestrMapping with
  | Some s => s ++ txt " ("%string ++ sprint_d p ++ txt ")"%string
  | None => txt "Unknown"%string
  end.
(** btypes/property.go:619-626 *)
Definition deviceProperties : list (Z * bool) := [(76, true)].
Definition IsDeviceProperty (p : Z) : bool := match mget Z.eqb p deviceProperties with Some _ => true | None => false end.

(** * The flags *)
(** strconv.Atoi on a 64 bit machine: an optional sign and decimal digits; None = an error *)
Definition Atoi (s : text) : option Z :=
  let (neg, ds) := match s with [] => (false, []) | c :: r => if c =? 45 then (true, r) else if c =? 43 then (false, r) else (false, s) end in
  let n := if neg then - number ds else number ds in
  if (0 <? zlen ds) && forallb is_digit ds && (-9223372036854775808 <=? n) && (n <=? 9223372036854775807) then Some n else None.
(** cmd/cmd/writeprop.go:98-104 and cmd/cmd/readprop.go:74-80: [err] is the one declared by
    the if statement, so an unknown name only leaves property 0 *)
Definition property_flag (s : text) : Z := match Atoi s with Some i => u32 i | None => fst (prop_Get s) end.
(** the flags of cmd/cmd/writeprop.go:44-62; ints as integers *)
Record cflags := mkFlags
  { cf_list : bool; cf_ip : text; cf_port : Z; cf_net : Z; cf_mac : Z; cf_inst : Z; cf_type : Z; cf_prop : text; cf_index : Z;
    cf_prio : Z; cf_null : bool; cf_value : text }.
(** strconv.ParseFloat for 32 and 64 bits, by the bits of the result and whether the
    error is nil, and the conversion uint32(f) of a single; which floats these are is
    left open *)
Record conv := mkConv { cv_f32 : text -> Z * bool; cv_f64 : text -> Z * bool; cv_u32 : Z -> Z }.

(** * The write command *)
(** cmd/cmd/writeprop.go:83-96; the identifier of the device is fixed *)
Definition flag_device (f : cflags) : device :=
  mkDev (mkOid 8 1103) 0 (mkAddr (u16 (cf_net f)) 0 0 (ip2bytes (cf_ip f) (u16 (cf_port f))) [u8 (cf_mac f)]).
(** cmd/cmd/writeprop.go:106-108, 114-128 with the data [v] *)
Definition flag_data (f : cflags) (v : value) : property_data :=
  let p := property_flag (cf_prop f) in
  let t := if IsDeviceProperty p then 8 else cf_type f in
  mkPD (mkObj [] [] (mkOid (u16 t) (u32 (cf_inst f))) [mkProp p (cf_index f) v (u8 (cf_prio f))]).
(** cmd/cmd/writeprop.go:154-169: the value and whether err is nil *)
Definition value_flag (cv : conv) (rd : value) (s : text) : value * bool :=
  match rd with
  | VUint _ => let (x, ok) := cv_f32 cv s in (VUint (cv_u32 cv x), ok)
  | VReal _ => let (x, ok) := cv_f32 cv s in (VReal x, ok)
  | VDouble _ => let (x, ok) := cv_f64 cv s in (VDouble x, ok)
  | VString _ => (VString s, true)
  | _ => (VNil, false)
  end.
(** how the command ends *)
Inductive told :=
| TListed                (* the list of names was asked for *)
| TNoValue               (* "No value returned" *)
| TWritten               (* WriteProperty returned without an error *)
| TFailed (x : cerr).    (* the error of WriteProperty was printed *)
(** cmd/cmd/writeprop.go:175-180 *)
Definition write_step (e : env) (me : option address) (f : cflags) (v : value) : call told :=
  match WriteProperty e me (flag_device f) (flag_data f v) with
  | (tr, COk _) => (tr, COk TWritten)
  | (tr, CErr x) => (tr, COk (TFailed x))
  | (tr, CPanic) => (tr, CPanic)
  | (tr, CDiverge) => (tr, CDiverge)
  end.
(** cmd/cmd/writeprop.go:65-181; [e1] is the environment of the read, [e2] that of
    the write.  CErr = log.Fatal; CNoData = "nothing was written" *)
Definition writeProp (e1 e2 : env) (me : option address) (cv : conv) (f : cflags) : call told :=
  if cf_list f then ([], COk TListed)
  else if cf_null f then write_step e2 me f VNull
  else nbind (ReadProperty e1 me (flag_device f) (flag_data f VNil)) (fun out =>
    match first_value out with
    | None => nret TNoValue
    | Some rd =>
      match cf_value f with
      | [] => ([], CErr CNoData)
      | s => write_step e2 me f (fst (value_flag cv rd s))   (* :170-172 only logs *)
      end
    end).

(** * The read and whois commands *)
(** cmd/cmd/readprop.go:46-57 and whoIs.go:26-34: both start with network.New on a
    network without a Store; [k] is the rest of the command *)
Definition with_network {A} (k : network -> call A) : call A :=
  match New (mkNet [] None) with
  | RPanic => ([], CPanic)
  | ROk None => ([], CErr CNoData)
  | ROk (Some n) => k n
  end.
(** cmd/cmd/readprop.go:89-98: what remains to be done with the result of device.Read,
    whose error is ignored; the type assertion accepts bit strings only, and GetValue
    panics on a nil one and on one that has more bits than octets *)
Definition read_end (out : property_data) : call unit :=
  match first_value out with
  | Some (VBits (Some b)) => ([], match bs_GetValue b with ROk _ => COk tt | RPanic => CPanic end)
  | _ => ([], CPanic)
  end.
(** cmd/cmd/readprop.go:46-105 without the list of points *)
Definition readProp (e : env) (me : option address) (d : ndevice) (f : cflags) : call unit :=
  with_network (fun n =>
    match NewDevice (Some n) d with
    | RPanic => ([], CPanic)
    | ROk None => ([], COk tt)
    | ROk (Some (d, _)) =>
      nbind (ignoring (Read e me d (Some (mkNO (u32 (cf_inst f)) (u16 (cf_type f)) (property_flag (cf_prop f)) (cf_index f))))) read_end
    end).
