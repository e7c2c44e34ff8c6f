(** * One client shared by many goroutines

    Puts together the calls (ModelClient), the handling of received datagrams
    (ModelClient.handleMsg, started by ClientRun, device.go:117-129) and the
    transaction manager (ModelTsm).  Any number of goroutines call
    ReadProperty, WriteProperty, ReadMultiProperty and WriteMultiProperty of the
    same client while any datagrams arrive; every interleaving is a list of
    [waction]s.

    Simplified:
    - a call is the value of [prog]: what it does between two blocking
      operations (encoding, decoding) takes no time and touches nothing shared;
    - Publish of the publish/subscribe manager (ModelUtsm) is taken to return;
    - the socket is a list of sent and a list of received datagrams; a
      transmission may fail ([WTx _ false]);
    - durations do not appear, a time-out may fire at any moment;
    - fields with prefix [g] or called history are ghosts. *)

From Verif Require Export ModelClient.
Require Verif.ModelTsm.

(** ** The calls as programs *)

(** What a call still has to do: return, or transmit a datagram and go on with
    the answer (the error of Send or Receive, or what Receive returned). *)
Inductive prog (A : Type) :=
| PRet (r : outcome A)
| PTry (g : datagram) (k : cerr + payload -> prog A).
Arguments PRet {A} r. Arguments PTry {A} g k.

(** c.Send and tsm.Receive; without a UDP address Send fails before it transmits
    (device.go:282, datalink/udp.go:114-121) *)
Definition try_send {A} (dest : address) (data : list Z) (k : cerr + payload -> prog A) : prog A :=
  match send_dgram dest data None with
  | None => k (inl CSend)
  | Some g => PTry g k
  end.

(** readprop.go:40-77 *)
Fixpoint rp_prog (n : nat) (dest : address) (data : list Z) (last : cerr) : prog property_data :=
  match n with
  | O => PRet (CErr last)
  | S n' =>
    try_send dest data (fun r =>
      match r with
      | inl err => rp_prog n' dest data err
      | inr (PErr c x) => PRet (CErr (CPdu c x))
      | inr (PBytes b) =>
        let '(err, d) := check_apdu (newDecoder b) in
        match err with
        | Some err => rp_prog n' dest data err
        | None =>
          match dec_ReadProperty d with
          | Panic => PRet CPanic
          | Fuel => PRet CDiverge
          | Val (Some out, None) d =>
              PRet (match derr d with None => COk out | Some x => CErr (CDec x) end)
          | Val (_, Some err) _ => rp_prog n' dest data (CDec err)
          | Val (None, None) _ => rp_prog n' dest data CNoData
          end
        end
      end)
  end.

(** writeprop.go:37-71 *)
Fixpoint wp_prog (n : nat) (dest : address) (data : list Z) (last : cerr) : prog unit :=
  match n with
  | O => PRet (CErr last)
  | S n' =>
    try_send dest data (fun r =>
      match r with
      | inl err => wp_prog n' dest data err
      | inr (PErr c x) => PRet (CErr (CPdu c x))
      | inr (PBytes b) =>
        match fst (check_apdu (newDecoder b)) with
        | Some err => wp_prog n' dest data err
        | None => PRet (COk tt)
        end
      end)
  end.

(** readmulti.go:60-107 *)
Fixpoint rpm_prog (fuel n : nat) (dest : address) (data : list Z) (last : cerr) : prog (list object) :=
  match n with
  | O => PRet (CErr (CWrap last))
  | S n' =>
    try_send dest data (fun r =>
      match r with
      | inl err => rpm_prog fuel n' dest data err
      | inr (PErr c x) => rpm_prog fuel n' dest data (CPdu c x)
      | inr (PBytes b) =>
        let '(err, d) := check_apdu (newDecoder b) in
        match err with
        | Some err => rpm_prog fuel n' dest data err
        | None =>
          match dec_ReadMultiplePropertyAck fuel d with
          | Panic => PRet CPanic
          | Fuel => PRet CDiverge
          | Val (objs, None) _ => PRet (COk objs)
          | Val (_, Some err) _ => rpm_prog fuel n' dest data (CDec err)
          end
        end
      end)
  end.

(** writemulti.go:46-86 *)
Fixpoint wpm_prog (n : nat) (dest : address) (data : list Z) (last : cerr) : prog unit :=
  match n with
  | O => PRet (CErr (CWrap last))
  | S n' =>
    try_send dest data (fun r =>
      match r with
      | inl err => wpm_prog n' dest data err
      | inr (PErr c x) => wpm_prog n' dest data (CPdu c x)
      | inr (PBytes b) =>
        match fst (check_apdu (newDecoder b)) with
        | Some err => wpm_prog n' dest data err
        | None => PRet (COk tt)
        end
      end)
  end.

(** The four confirmed calls and their results. *)
Inductive request :=
| RqRead (d : device) (rp : property_data)
| RqWrite (d : device) (wp : property_data)
| RqReadMulti (fuel : nat) (d : device) (rp : multiple_property_data)
| RqWriteMulti (d : device) (wp : multiple_property_data).
Inductive answer := AnRead (x : property_data) | AnDone | AnObjects (l : list object).

Definition omap {A B} (f : A -> B) (r : outcome A) : outcome B :=
  match r with COk a => COk (f a) | CErr e => CErr e | CPanic => CPanic | CDiverge => CDiverge end.
Fixpoint pmap {A B} (f : A -> B) (p : prog A) : prog B :=
  match p with
  | PRet r => PRet (omap f r)
  | PTry g k => PTry g (fun r => pmap f (k r))
  end.

(** The part of a call after tsm.ID; [id] is what it returned.
    readprop.go:16-39 *)
Definition ReadProperty_prog (id : option Z) (me : option address) (dev : device)
  (rp : property_data) : prog property_data :=
  match id with
  | None => PRet (CErr CNoId)
  | Some id =>
    let dest := addr_SetLength (dv_addr dev) in
    match enc_NPDU (request_npdu dest me) newEncoder with
    | RPanic => PRet CPanic
    | ROk en =>
      match enc_ReadProperty (u8 id) rp en with
      | RPanic => PRet CPanic
      | ROk (_, Some x) => PRet (CErr (CEnc x))
      | ROk (en, None) => rp_prog retryCount dest (ebuf en) CNoData
      end
    end
  end.
(** writeprop.go:14-36 *)
Definition WriteProperty_prog (id : option Z) (me : option address) (dev : device)
  (wp : property_data) : prog unit :=
  match id with
  | None => PRet (CErr CNoId)
  | Some id =>
    let dest := addr_SetLength (dv_addr dev) in
    match enc_NPDU (request_npdu dest me) newEncoder with
    | RPanic => PRet CPanic
    | ROk en =>
      match enc_WriteProperty (u8 id) wp en with
      | RPanic => PRet CPanic
      | ROk (en, _) =>
        match eerr en with
        | Some x => PRet (CErr (CEnc x))
        | None => wp_prog 2 dest (ebuf en) CNoData
        end
      end
    end
  end.
(** readmulti.go:25-58 *)
Definition ReadMultiProperty_prog (fuel : nat) (id : option Z) (me : option address) (dev : device)
  (rp : multiple_property_data) : prog (list object) :=
  match id with
  | None => PRet (CErr CNoId)
  | Some id =>
    let dest := addr_SetLength (dv_addr dev) in
    if dv_maxapdu dev =? 0 then PRet (CErr CZeroApdu)
    else
    match enc_NPDU (request_npdu dest me) newEncoder with
    | RPanic => PRet CPanic
    | ROk en =>
      match enc_ReadMultipleProperty (u8 id) rp en with
      | RPanic => PRet CPanic
      | ROk (_, Some x) => PRet (CErr (CEnc x))
      | ROk (en, None) =>
        if dv_maxapdu dev <? u32 (zlen (ebuf en)) then PRet (CErr CTooLarge)
        else rpm_prog fuel maxReattempt dest (ebuf en) CNoData
      end
    end
  end.
(** writemulti.go:15-44 *)
Definition WriteMultiProperty_prog (id : option Z) (me : option address) (dev : device)
  (wp : multiple_property_data) : prog unit :=
  match id with
  | None => PRet (CErr CNoId)
  | Some id =>
    let dest := dv_addr dev in
    match enc_NPDU (request_npdu dest me) newEncoder with
    | RPanic => PRet CPanic
    | ROk en =>
      match enc_WriteMultiProperty (u8 id) wp en with
      | RPanic => PRet CPanic
      | ROk (en, _) =>
        match eerr en with
        | Some x => PRet (CErr (CEnc x))
        | None =>
          if dv_maxapdu dev <? u32 (zlen (ebuf en)) then PRet (CErr CTooLarge)
          else wpm_prog maxReattempt dest (ebuf en) CNoData
        end
      end
    end
  end.

Definition start (me : option address) (rq : request) (id : option Z) : prog answer :=
  match rq with
  | RqRead d rp => pmap AnRead (ReadProperty_prog id me d rp)
  | RqWrite d wp => pmap (fun _ => AnDone) (WriteProperty_prog id me d wp)
  | RqReadMulti fuel d rp => pmap AnObjects (ReadMultiProperty_prog fuel id me d rp)
  | RqWriteMulti d wp => pmap (fun _ => AnDone) (WriteMultiProperty_prog id me d wp)
  end.

(** ** The system *)

(** How one attempt ended: the error of Send or Receive, or the number of the
    arrival whose payload Receive returned. *)
Definition reply := (cerr + nat)%type.

(** A datagram whose handler called tsm.Send(id, payload). *)
Record arrival := mkArr { ar_src : address; ar_bytes : list Z; ar_id : Z; ar_load : payload }.

(** What a goroutine is doing. *)
Inductive phase :=
| NFree                                            (* nothing *)
| NId (rq : request)                               (* a call, in tsm.ID *)
| NRun (rq : request) (id : Z) (g : nat) (h : list reply) (tr : list datagram) (p : prog answer)
                                                   (* a call, running *)
| NRecv (rq : request) (id : Z) (g : nat) (h : list reply) (tr : list datagram)
        (k : cerr + payload -> prog answer)        (* a call, in tsm.Receive *)
| NPut (rq : request) (id : Z) (g : nat) (h : list reply) (tr : list datagram) (r : outcome answer)
                                                   (* a call, in the deferred tsm.Put *)
| NHandle (v : nat)                                (* handleMsg of arrival v, in tsm.Send *)
| NStray.                                          (* a call for which Receive returned nil or
                                                      "is not sending"; not followed further *)

(** A call that has returned. *)
Record finished := mkFin
  { fi_thread : nat; fi_req : request; fi_id : option Z; fi_hist : list reply;
    fi_sent : list datagram; fi_result : outcome answer }.

Record world := mkW {
  w_tsm : ModelTsm.sys;
  w_ph : list phase;                 (* per goroutine, as in sy_thr *)
  w_in : list arrival;
  w_done : list finished;            (* newest first *)
  w_dead : bool                      (* a goroutine panicked outside the manager *)
}.

(** device.go:19 *)
Definition defaultStateSize : nat := 20.
Definition w_init : world := mkW (ModelTsm.init defaultStateSize) [] [] [] false.

Definition with_tsm (w : world) (s : ModelTsm.sys) : world :=
  mkW s (w_ph w) (w_in w) (w_done w) (w_dead w).
Definition with_ph (w : world) (i : nat) (x : phase) : world :=
  mkW (w_tsm w) (ModelTsm.upd (w_ph w) i x) (w_in w) (w_done w) (w_dead w).
Definition with_done (w : world) (f : finished) : world :=
  mkW (w_tsm w) (w_ph w) (w_in w) (f :: w_done w) (w_dead w).
Definition kill (w : world) : world := mkW (w_tsm w) (w_ph w) (w_in w) (w_done w) true.

Definition load_of (w : world) (v : nat) : payload :=
  match nth_error (w_in w) v with Some a => ar_load a | None => PBytes [] end.

(** The handler of arrival [v] goes on after tsm.Send, which returned an error
    or not: device.go:204-240. *)
Definition handled (w : world) (i v : nat) (found : bool) : world :=
  let w := with_ph w i NFree in
  match nth_error (w_in w) v with
  | None => w
  | Some a => if snd (handleMsg (fun _ => found) (ar_src a) (ar_bytes a)) then kill w else w
  end.

(** A call in tsm.Receive goes on. *)
Definition received (w : world) (j : nat) (x : reply) : world :=
  match nth_error (w_ph w) j with
  | Some (NRecv rq id g h tr k) =>
      with_ph w j (NRun rq id g (h ++ [x]) tr
                     (k (match x with inl e => inl e | inr v => inr (load_of w v) end)))
  | _ => w
  end.

(** A call of the transaction manager has returned to the goroutine that made it. *)
Definition returned (me : option address) (w : world) (e : ModelTsm.event) : world :=
  match e with
  | ModelTsm.EGot i id _ g =>
      match nth_error (w_ph w) i with
      | Some (NId rq) => with_ph w i (NRun rq id g [] [] (start me rq (Some id)))
      | _ => w
      end
  | ModelTsm.ENoId i =>
      match nth_error (w_ph w) i with
      | Some (NId rq) =>
          match start me rq None with
          | PRet r => with_done (with_ph w i NFree) (mkFin i rq None [] [] r)
          | PTry _ _ => with_ph w i NStray
          end
      | _ => w
      end
  | ModelTsm.EPut i _ _ | ModelTsm.EPutErr i _ =>
      match nth_error (w_ph w) i with
      | Some (NPut rq id g h tr r) => with_done (with_ph w i NFree) (mkFin i rq (Some id) h tr r)
      | _ => w
      end
  | ModelTsm.ESendErr i _ _ =>
      match nth_error (w_ph w) i with
      | Some (NHandle v) => handled w i v false
      | _ => w
      end
  | ModelTsm.EDeliver i _ _ j _ _ v =>
      let w := received w j (inr (Z.to_nat v)) in
      match nth_error (w_ph w) i with
      | Some (NHandle v) => handled w i v true
      | _ => w
      end
  | ModelTsm.ERecvTimeout j _ => received w j (inl CTimeout)
  | ModelTsm.ERecvNil j _ | ModelTsm.ERecvErr j _ => with_ph w j NStray
  | ModelTsm.ESendFound _ _ _ _ | ModelTsm.EClosed _ _ _ | ModelTsm.ECrash _ => w
  end.

Inductive waction :=
| WSpawn                                       (* a new goroutine *)
| WCall (i : nat) (rq : request)               (* goroutine i makes a call *)
| WArrive (i : nat) (src : address) (b : list Z)  (* goroutine i handles a received datagram *)
| WTx (i : nat) (ok : bool)                    (* goroutine i transmits; [ok]: without error *)
| WRet (i : nat)                               (* the call of goroutine i comes to its end *)
| WTsm (a : ModelTsm.action).                  (* a step inside the transaction manager *)

Definition inside (a : ModelTsm.action) : bool :=
  match a with ModelTsm.ASpawn | ModelTsm.ACall _ _ => false | _ => true end.

(** the tsm.Send of a handler *)
Fixpoint delivery (l : list effect) : option (Z * payload) :=
  match l with
  | [] => None
  | EDeliver id p :: _ => Some (id, p)
  | _ :: t => delivery t
  end.

(** [None]: not possible in this state. *)
Definition wexec (me : option address) (w : world) (a : waction) : option world :=
  if w_dead w then None else
  match a with
  | WSpawn =>
      match ModelTsm.exec (w_tsm w) ModelTsm.ASpawn with
      | Some s => Some (mkW s (w_ph w ++ [NFree]) (w_in w) (w_done w) (w_dead w))
      | None => None
      end
  (* readprop.go:14-16, writeprop.go:12-14, readmulti.go:23-25, writemulti.go:13-15 *)
  | WCall i rq =>
      match nth_error (w_ph w) i with
      | Some NFree =>
          match ModelTsm.exec (w_tsm w) (ModelTsm.ACall i ModelTsm.CallID) with
          | Some s => Some (with_ph (with_tsm w s) i (NId rq))
          | None => None
          end
      | _ => None
      end
  (* device.go:127, 131-241 *)
  | WArrive i src b =>
      match nth_error (w_ph w) i with
      | Some NFree =>
          let '(eff, panicked) := handleMsg (fun _ => true) src b in
          match delivery eff with
          | Some (id, p) =>
              let v := length (w_in w) in
              match ModelTsm.exec (w_tsm w)
                      (ModelTsm.ACall i (ModelTsm.CallSend id (Z.of_nat v))) with
              | Some s =>
                  Some (mkW s (ModelTsm.upd (w_ph w) i (NHandle v))
                          (w_in w ++ [mkArr src b id p]) (w_done w) (w_dead w))
              | None => None
              end
          | None => if ModelTsm.sy_crash (w_tsm w) then None
                    else Some (if panicked then kill w else w)
          end
      | _ => None
      end
  | WTx i ok =>
      match nth_error (w_ph w) i with
      | Some (NRun rq id g h tr (PTry d k)) =>
          if ok then
            match ModelTsm.exec (w_tsm w) (ModelTsm.ACall i (ModelTsm.CallRecv id)) with
            | Some s => Some (with_ph (with_tsm w s) i (NRecv rq id g h (tr ++ [d]) k))
            | None => None
            end
          else if ModelTsm.sy_crash (w_tsm w) then None
          else Some (with_ph w i (NRun rq id g (h ++ [inl CSend]) (tr ++ [d]) (k (inl CSend))))
      | _ => None
      end
  (* the deferred Put: readprop.go:20; a decoder that loops never gets here *)
  | WRet i =>
      match nth_error (w_ph w) i with
      | Some (NRun rq id g h tr (PRet r)) =>
          match r with
          | CDiverge => None
          | CPanic => if ModelTsm.sy_crash (w_tsm w) then None else Some (kill w)
          | _ =>
              match ModelTsm.exec (w_tsm w) (ModelTsm.ACall i (ModelTsm.CallPut id)) with
              | Some s => Some (with_ph (with_tsm w s) i (NPut rq id g h tr r))
              | None => None
              end
          end
      | _ => None
      end
  | WTsm a =>
      if inside a then
        match ModelTsm.exec (w_tsm w) a with
        | Some s =>
            let w' := with_tsm w s in
            if Nat.eqb (length (ModelTsm.sy_log s)) (length (ModelTsm.sy_log (w_tsm w)))
            then Some w'
            else match ModelTsm.sy_log s with
                 | e :: _ => Some (returned me w' e)
                 | [] => Some w'
                 end
        | None => None
        end
      else None
  end.

Fixpoint wrun (me : option address) (w : world) (l : list waction) : option world :=
  match l with
  | [] => Some w
  | a :: t => match wexec me w a with Some w' => wrun me w' t | None => None end
  end.
