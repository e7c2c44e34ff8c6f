(** Model of the command "multi" of cmd/cmd/readmultiprop.go.  Printing is left out
    except for what the command tells at its end; the calls of its client are given by
    their environments.  No proofs in this file. *)
From Verif Require Export ModelCmd.
Open Scope Z_scope.

(** the flags of cmd/cmd/readmultiprop.go:171-179 and cmd/cmd/root.go:35-36, as they are used
    by the command; ints as integers *)
Record mflags := mkMF
  { mf_list : bool; mf_iface : text; mf_myport : Z; mf_device : Z; mf_ip : text; mf_port : Z; mf_net : Z; mf_mac : Z }.
(** cmd/cmd/readmultiprop.go:39-53, 71-74, 82: the device that is asked, with the
    MaxApdu learnt so far.  The error of ip2bytes.New (40-42) never occurs, see
    [ip2bytes]. *)
Definition multi_device (f : mflags) (maxapdu : Z) : device :=
  mkDev (mkOid 8 (u32 (mf_device f))) maxapdu (mkAddr (u16 (mf_net f)) 0 0 (ip2bytes (mf_ip f) (u16 (mf_port f))) [u8 (mf_mac f)]).
(** cmd/cmd/readmultiprop.go:56-69 and 87-100 with the property [p] *)
Definition multi_data (f : mflags) (p : Z) : property_data :=
  mkPD (mkObj [] [] (mkOid 8 (u32 (mf_device f))) [mkProp p ArrayAll VNil 0]).
(** cmd/cmd/readmultiprop.go:109-160: one entry, and the four asked for *)
Definition multi_entry (i p : Z) : object := mkObj [] [] (mkOid 1 i) [mkProp p ArrayAll VNil 0].
Definition multi_wanted : multiple_property_data :=
  mkMPD [multi_entry 1 77; multi_entry 1 85; multi_entry 2 77; multi_entry 2 85].
(** how the command ends *)
Inductive mtold :=
| MListed                        (* the list of names was asked for *)
| MShown (objs : list object)    (* the objects were printed *)
| MFailed (x : cerr).            (* the error of ReadMultiProperty was printed *)
(** cmd/cmd/readmultiprop.go:163-167; [objs] printed after an error are not kept *)
Definition multi_last (fuel : nat) (e : env) (me : option address) (dev : device) : call mtold :=
  match ReadMultiProperty fuel e me dev multi_wanted with
  | (tr, COk objs) => (tr, COk (MShown objs))
  | (tr, CErr x) => (tr, COk (MFailed x))
  | (tr, CPanic) => (tr, CPanic)
  | (tr, CDiverge) => (tr, CDiverge)
  end.
(** cmd/cmd/readmultiprop.go:71-167 on a client with the data link [l]: [e1], [e2],
    [e3] are the environments of the three calls; CErr = log.Fatal.  The object list
    is read and not used. *)
Definition multi_calls (fuel : nat) (e1 e2 e3 : env) (l : link) (f : mflags) : call mtold :=
  let me := Some (lk_my l) in
  nbind (ReadProperty e1 me (multi_device f 0) (multi_data f 62)) (fun out =>
    let dev := multi_device f (snd (ToUint32 out)) in
    nbind (ReadProperty e2 me dev (multi_data f 76)) (fun _ => multi_last fuel e3 me dev)).
(** cmd/cmd/readmultiprop.go:26-169.  The error of NewClient is ignored; without a data
    link the receive loop panics in c.dataLink.Receive (device.go:123), and so does
    ReadProperty in GetMyAddress (readprop.go:26), whichever comes first. *)
Definition readMulti (ifs : text -> option (list text)) (listen : option Z -> bool) (fuel : nat) (e1 e2 e3 : env) (f : mflags) : call mtold :=
  if mf_list f then ([], COk MListed)
  else match NewClient ifs listen (mkCB (mf_iface f) [] (mf_myport f) 0 0) with
       | RPanic => ([], CPanic)
       | ROk (c, _) =>
         match cl_link c with
         | None => ([], CPanic)
         | Some l => multi_calls fuel e1 e2 e3 l f
         end
       end.
