(** * The discovery calls of a client, running together

    WhoIs (whois.go:20-115), WhoIsRouterToNetwork (whoisrouter.go:14-58) and
    WhatIsNetworkNumber (whatnetwork.go:19-63) with the goroutine each of them
    starts for the transmission, the receive path (device.go:127, 131-241) and the
    publish/subscribe manager they share ([ModelUtsm]): a state machine over
    explicit steps, one step at a time.

    The variable [err] of the three calls is shared between the call and its
    goroutine (whois.go:47, 63, 66, 70): the assignments, the reading of [err] for
    the channel and the test of 67 are steps of their own.

    Simplified:
    - the transaction manager is left out: a handler that delivers to it (see
      [ModelSystem]) goes on at once, [known] being what tsm.Send finds;
    - time does not appear (see [ModelUtsm]);
    - the fields of the options are read when the call starts, and the writing of
      NetworkNumber into them (whois.go:26) is not kept here (see ModelOpts, C145). *)
From Verif Require Export ModelClient.
From Verif Require ModelTsm ModelUtsm.
Open Scope Z_scope.

(** the calls *)
Inductive scan := QWho (wh : whoIsOpts) | QRouters | QNumbers.
(** whois.go:52-59, whoisrouter.go:37, whatnetwork.go:42 *)
Definition scan_range (q : scan) : Z * Z :=
  match q with QWho wh => whois_sub wh | QRouters | QNumbers => (1, 65534) end.
(** whois.go:21-50, 63; whoisrouter.go:15-34; whatnetwork.go:20-39 *)
Definition scan_frame (bcast : address) (me : option address) (q : scan) : res (option datagram) :=
  match q with QWho wh => whois_frame bcast me wh | QRouters => netmsg_frame 0 bcast me | QNumbers => netmsg_frame 18 bcast me end.
(** what a call returns *)
Inductive sresult := XDevices (l : list found) | XAddrs (l : list address) | XErr.
(** whois.go:74-114, whoisrouter.go:45-55, whatnetwork.go:51-60 *)
Definition scan_result (q : scan) (vs : list pub) : sresult :=
  match q with
  | QWho _ => XDevices (whois_result vs)
  | QRouters => XAddrs (whoisrouter_result vs)
  | QNumbers => XAddrs (whatnetwork_result vs)
  end.
(** whois.go:67-73 against whoisrouter.go:38-43, whatnetwork.go:43-48: only WhoIs
    returns the error *)
Definition scan_stops (q : scan) : bool := match q with QWho _ => true | _ => false end.

(** The goroutine of whois.go:62-65: before Send, after the assignment of 63, in
    the send of 64 with the value read; [failed]: Send returned an error. *)
Inductive sender := TNot | TSent (failed : bool) | TOffer (failed e : bool).

(** What a goroutine is doing; [err]: the shared variable is not nil. *)
Inductive sphase :=
| YFree
| YSub (q : scan) (t : sender) (err : bool)                     (* in utsm.Subscribe *)
| YTest (q : scan) (s : nat) (store : list Z) (t : sender) (err : bool)   (* whois.go:67 *)
| YWait (q : scan) (s : nat) (store : list Z) (t : sender) (err : bool)   (* whois.go:70 *)
| YHandle (ps : list (Z * pub)) (panics : bool).                (* handleMsg, in utsm.Publish of the
                                                                   first, the others to come *)

(** A call that has returned: what was handed to the data link and whether that
    failed, the number of its subscriber ([ModelUtsm]), the numbers of the publications
    its Subscribe returned, the result. *)
Record sdone := mkSD
  { sd_thread : nat; sd_req : scan; sd_sent : option datagram; sd_failed : bool; sd_sub : nat; sd_store : list Z; sd_result : sresult }.

Record syst := mkY {
  y_u : ModelUtsm.usys;
  y_ph : list sphase;              (* per goroutine, as in u_thr *)
  y_pubs : list (Z * pub);         (* all arguments of Publish; the manager handles their numbers *)
  y_done : list sdone;             (* newest first *)
  y_dead : bool                    (* a goroutine panicked *)
}.
Definition y_init : syst := mkY ModelUtsm.uinit [] [] [] false.

Definition y_setu (w : syst) (u : ModelUtsm.usys) : syst := mkY u (y_ph w) (y_pubs w) (y_done w) (y_dead w).
Definition y_setph (w : syst) (i : nat) (x : sphase) : syst :=
  mkY (y_u w) (ModelTsm.upd (y_ph w) i x) (y_pubs w) (y_done w) (y_dead w).
Definition y_kill (w : syst) : syst := mkY (y_u w) (y_ph w) (y_pubs w) (y_done w) true.
Definition y_pub (w : syst) (v : Z) : list pub :=
  match nth_error (y_pubs w) (Z.to_nat v) with Some x => [snd x] | None => [] end.
Definition y_values (w : syst) (store : list Z) : list pub := flat_map (y_pub w) store.

(** The call of goroutine [i] returns. *)
Definition y_finish (bcast : address) (me : option address) (w : syst) (i : nat) (q : scan) (t : sender)
    (s : nat) (store : list Z) (r : sresult) : syst :=
  let sent := match t, scan_frame bcast me q with
              | TNot, _ => None | _, ROk d => d | _, RPanic => None end in
  mkY (y_u w) (ModelTsm.upd (y_ph w) i YFree) (y_pubs w) (mkSD i q sent (match t with TSent f | TOffer f _ => f | TNot => false end) s store r :: y_done w) (y_dead w).

(** Goroutine [i], the handler of a datagram, has [ps] to publish: device.go:153,
    157, 194.  Publications are numbered in the order in which Publish is called. *)
Definition y_publish (w : syst) (i : nat) (ps : list (Z * pub)) (panics : bool) : option syst :=
  match ps with
  | [] => Some (if panics then y_kill (y_setph w i YFree) else y_setph w i YFree)
  | (k, x) :: _ =>
      match ModelUtsm.uexec (y_u w) (ModelUtsm.VCall i (ModelUtsm.CallPub k (Z.of_nat (length (y_pubs w))))) with
      | Some u => Some (mkY u (ModelTsm.upd (y_ph w) i (YHandle ps panics)) (y_pubs w ++ [(k, x)]) (y_done w) (y_dead w))
      | None => None
      end
  end.

(** A call of the manager has returned to its goroutine. *)
Definition y_returned (w : syst) (e : ModelUtsm.uevent) : option syst :=
  match e with
  | ModelUtsm.UPubRet i =>
      match nth_error (y_ph w) i with
      | Some (YHandle (_ :: ps) panics) => y_publish w i ps panics
      | _ => Some w
      end
  (* whois.go:66: err is nil *)
  | ModelUtsm.URet i s store =>
      match nth_error (y_ph w) i with
      | Some (YSub q t _) => Some (y_setph w i (YTest q s store t false))
      | _ => Some w
      end
  | ModelUtsm.UPub _ _ _ | ModelUtsm.USub _ _ _ _ => Some w
  end.

Inductive yaction :=
| YSpawn                                       (* a new goroutine *)
| YCall (i : nat) (q : scan)                   (* goroutine i makes a call *)
| YArrive (i : nat) (src : address) (b : list Z) (known : bool)
                                               (* goroutine i handles a received datagram *)
| YTx (i : nat) (ok : bool)                    (* whois.go:63 for the call of goroutine i; [ok]: the
                                                  datagram was written without error *)
| YOffer (i : nat)                             (* whois.go:64: err is read *)
| YCheck (i : nat)                             (* whois.go:67 *)
| YTake (i : nat)                              (* whois.go:70-114 *)
| YIn (a : ModelUtsm.uaction).                 (* a step inside the manager *)

(** the publications of a handler *)
Definition effect_pub (e : effect) : list (Z * pub) :=
  match e with
  | EDeliver _ _ => []
  | EPubNpdu k n => [(k, PubNpdu n)]
  | EPubNets k l => [(k, PubNets l)]
  | EPubIAm k i => [(k, PubIAm i)]
  end.

Definition y_inside (a : ModelUtsm.uaction) : bool :=
  match a with ModelUtsm.VSpawn | ModelUtsm.VCall _ _ => false | _ => true end.

(** [None]: not possible in this state. *)
Definition yexec (bcast : address) (me : option address) (w : syst) (a : yaction) : option syst :=
  if y_dead w then None else
  match a with
  | YSpawn =>
      match ModelUtsm.uexec (y_u w) ModelUtsm.VSpawn with
      | Some u => Some (mkY u (y_ph w ++ [YFree]) (y_pubs w) (y_done w) (y_dead w))
      | None => None
      end
  | YCall i q =>
      match nth_error (y_ph w) i with
      | Some YFree =>
          match scan_frame bcast me q with
          | RPanic => Some (y_kill w)
          | ROk _ =>
              match ModelUtsm.uexec (y_u w) (ModelUtsm.VCall i (ModelUtsm.CallSub (fst (scan_range q)) (snd (scan_range q)))) with
              | Some u => Some (y_setph (y_setu w u) i (YSub q TNot false))
              | None => None
              end
          end
      | _ => None
      end
  | YArrive i src b known =>
      match nth_error (y_ph w) i with
      | Some YFree =>
          let '(eff, panics) := handleMsg (fun _ => known) src b in
          y_publish w i (flat_map effect_pub eff) panics
      | _ => None
      end
  (* device.go:249-283: without a UDP form of the address Send fails *)
  | YTx i ok =>
      let failed q := match scan_frame bcast me q with ROk (Some _) => negb ok | _ => true end in
      match nth_error (y_ph w) i with
      | Some (YSub q TNot _) => Some (y_setph w i (YSub q (TSent (failed q)) (failed q)))
      | Some (YTest q s store TNot _) => Some (y_setph w i (YTest q s store (TSent (failed q)) (failed q)))
      | Some (YWait q s store TNot _) => Some (y_setph w i (YWait q s store (TSent (failed q)) (failed q)))
      | _ => None
      end
  | YOffer i =>
      match nth_error (y_ph w) i with
      | Some (YSub q (TSent f) err) => Some (y_setph w i (YSub q (TOffer f err) err))
      | Some (YTest q s store (TSent f) err) => Some (y_setph w i (YTest q s store (TOffer f err) err))
      | Some (YWait q s store (TSent f) err) => Some (y_setph w i (YWait q s store (TOffer f err) err))
      | _ => None
      end
  | YCheck i =>
      match nth_error (y_ph w) i with
      | Some (YTest q s store t err) =>
          if err && scan_stops q then Some (y_finish bcast me w i q t s store XErr)
          else Some (y_setph w i (YWait q s store t err))
      | _ => None
      end
  | YTake i =>
      match nth_error (y_ph w) i with
      | Some (YWait q s store (TOffer f e) _) =>
          Some (y_finish bcast me w i q (TOffer f e) s store
                  (if e && scan_stops q then XErr else scan_result q (y_values w store)))
      | _ => None
      end
  | YIn a =>
      if y_inside a then
        match ModelUtsm.uexec (y_u w) a with
        | Some u =>
            if Nat.eqb (length (ModelUtsm.u_log u)) (length (ModelUtsm.u_log (y_u w)))
            then Some (y_setu w u)
            else match ModelUtsm.u_log u with
                 | e :: _ => y_returned (y_setu w u) e
                 | [] => Some (y_setu w u)
                 end
        | None => None
        end
      else None
  end.

Fixpoint yrun (bcast : address) (me : option address) (w : syst) (l : list yaction) : option syst :=
  match l with
  | [] => Some w
  | a :: t => match yexec bcast me w a with Some w' => yrun bcast me w' t | None => None end
  end.
