(** * Model of the transaction manager (tsm/transactions.go)

    The manager is shared by any number of goroutines: the calls of the client
    (ID, Receive, Put; e.g. readprop.go:14-52) and one goroutine per datagram
    that calls Send (device.go:127, 204-227).  It is modelled as a state machine
    over explicit steps.  [exec] performs one step named by an [action]; every
    interleaving of every set of goroutines is a list of actions.

    Where Go chooses (which goroutine runs, which ready case of a select, which
    value sync.Pool returns, when a timer fires) the action says which choice is
    taken, so all choices are covered.

    Simplified:
    - time does not appear: a timeout may fire at any moment ([ATimeout]);
    - the values sent are integers (the code never looks into them);
    - [state.id], [state.state], [state.requestTimer] are written but never
      read (transactions.go:19-24, 121-122) and are left out;
    - error values carry no text;
    - memory accesses are sequentially consistent; [Send] and [Receive] read
      [s.data] after releasing the mutex (transactions.go:75, 95), which is one
      separate step here;
    - a critical section without blocking operation inside (Send 68-70,
      Receive 82-84, ID 125-128) is one step that requires the mutex to be free;
    - numbers written with prefix [g] are ghosts: the serial number of the
      transaction (how many ids had been handed out before).  No step depends
      on them. *)

Require Import List ZArith Bool Lia.
Import ListNotations.
Open Scope Z_scope.

(** Replace the [i]-th element of a list. *)
Fixpoint upd {A} (l : list A) (i : nat) (x : A) : list A :=
  match l, i with
  | [], _ => []
  | _ :: t, O => x :: t
  | a :: t, S j => a :: upd t j x
  end.

(** Remove the [i]-th element of a list. *)
Fixpoint del {A} (l : list A) (i : nat) : list A :=
  match l, i with
  | [], _ => []
  | _ :: t, O => t
  | a :: t, S j => a :: del t j
  end.

(** Program counters of one goroutine. *)
Inductive pc :=
| PIdle
(* ID, transactions.go:104-129 *)
| IDSpace                               (* 106: waiting for a slot *)
| IDFree                                (* 109: has a slot, waits for an id *)
| IDBack                                (* 112: gives the slot back *)
| IDGet (id : Z)                        (* 120: pool.Get *)
| IDMake (id : Z) (o : nat)             (* 123: s.data = make(chan) *)
| IDLock (id : Z) (o : nat)             (* 125-128 *)
(* Put, 132-147 *)
| PutLock (id : Z)                      (* 133-139 *)
| PutClose (id : Z) (o g : nat)         (* 141 *)
| PutPool (id : Z) (o g : nat)          (* 142 *)
| PutId (id : Z) (o g : nat)            (* 143 *)
| PutSpace (id : Z) (o g : nat)         (* 144 *)
| PutDel (id : Z) (o g : nat)           (* 145-146 *)
(* Send, 67-77 *)
| SendLock (id v : Z)                   (* 68-74 *)
| SendEval (id v : Z) (o g : nat)       (* 75: evaluates s.data *)
| SendWait (id v : Z) (c : option nat) (g : nat)   (* 75: blocked on the channel *)
(* Receive, 81-101 *)
| RecvLock (id : Z)                     (* 82-88 *)
| RecvEval (id : Z) (o g : nat)         (* 95: evaluates s.data *)
| RecvWait (id : Z) (c : option nat) (g : nat).    (* 94: select *)

(** What the calls return, newest first in the log. *)
Inductive event :=
| EGot (i : nat) (id : Z) (o g : nat)   (* ID returned (id, nil); transaction g *)
| ENoId (i : nat)                       (* ID returned an error *)
| EPut (i : nat) (id : Z) (g : nat)     (* Put returned nil *)
| EPutErr (i : nat) (id : Z)            (* Put returned an error *)
| EClosed (i : nat) (id : Z) (g : nat)  (* Put closed the channel of g *)
| ESendFound (i : nat) (id v : Z) (g : nat) (* Send found transaction g *)
| ESendErr (i : nat) (id v : Z)         (* Send returned an error *)
| EDeliver (i : nat) (sid : Z) (sg : nat) (j : nat) (rid : Z) (rg : nat) (v : Z)
    (* Send(sid, v) of goroutine i returned nil and Receive(rid) of goroutine j
       returned (v, nil) *)
| ERecvNil (j : nat) (id : Z)           (* Receive returned (nil, nil) *)
| ERecvTimeout (j : nat) (id : Z)
| ERecvErr (j : nat) (id : Z)
| ECrash (i : nat).                     (* run-time panic in goroutine i *)

(** TSM (transactions.go:28-36) with the heap it refers to and the goroutines. *)
Record sys := mkSys {
  sy_size : nat;                        (* capacity of free.space *)
  sy_lock : option nat;                 (* holder of mutex *)
  sy_table : list (Z * (nat * nat));    (* states: id -> (state object, g) *)
  sy_pool : list nat;                   (* objects in pool *)
  sy_ids : list Z;                      (* content of free.id *)
  sy_space : nat;                       (* content of free.space *)
  sy_objs : list (option nat);          (* data channel of each state object *)
  sy_chans : list bool;                 (* per channel: closed? *)
  sy_thr : list pc;
  sy_gen : nat;                         (* ghost: transactions so far *)
  sy_log : list event;
  sy_crash : bool
}.

(** MaxTransaction, transactions.go:12: the capacity of free.id. *)
Definition cap_ids : nat := 255.

(** New, transactions.go:39-64: ids 1 .. 254 and [size] slots.  No goroutine yet. *)
Definition init (size : nat) : sys :=
  mkSys size None [] [] (map Z.of_nat (seq 1 254)) size [] [] [] 0 [] false.

(** The calls. *)
Inductive op := CallID | CallPut (id : Z) | CallSend (id v : Z) | CallRecv (id : Z).

Definition entry_of (o : op) : pc :=
  match o with
  | CallID => IDSpace
  | CallPut id => PutLock id
  | CallSend id v => SendLock id v
  | CallRecv id => RecvLock id
  end.

Inductive action :=
| ASpawn                                (* a new goroutine *)
| ACall (i : nat) (o : op)              (* goroutine i calls o *)
| AStep (i : nat)                       (* next step of goroutine i *)
| ATimeout (i : nat)                    (* the ctx.Done case of its select *)
| AGet (i : nat) (k : option nat)       (* pool.Get: k-th pooled object or a new one *)
| ADeliver (i j : nat)                  (* sender i meets receiver j *)
| AGc (k : nat).                        (* sync.Pool drops an object *)

Definition lookup (id : Z) (t : list (Z * (nat * nat))) : option (nat * nat) :=
  match find (fun e => fst e =? id) t with
  | Some e => Some (snd e)
  | None => None
  end.

(** delete(t.states, id) *)
Definition without (id : Z) (t : list (Z * (nat * nat))) : list (Z * (nat * nat)) :=
  filter (fun e => negb (fst e =? id)) t.

Definition set_pc (s : sys) (i : nat) (p : pc) : sys :=
  mkSys (sy_size s) (sy_lock s) (sy_table s) (sy_pool s) (sy_ids s) (sy_space s)
    (sy_objs s) (sy_chans s) (upd (sy_thr s) i p) (sy_gen s) (sy_log s) (sy_crash s).

Definition set_lock (s : sys) (l : option nat) : sys :=
  mkSys (sy_size s) l (sy_table s) (sy_pool s) (sy_ids s) (sy_space s)
    (sy_objs s) (sy_chans s) (sy_thr s) (sy_gen s) (sy_log s) (sy_crash s).

Definition set_table (s : sys) (t : list (Z * (nat * nat))) : sys :=
  mkSys (sy_size s) (sy_lock s) t (sy_pool s) (sy_ids s) (sy_space s)
    (sy_objs s) (sy_chans s) (sy_thr s) (sy_gen s) (sy_log s) (sy_crash s).

Definition set_pool (s : sys) (p : list nat) : sys :=
  mkSys (sy_size s) (sy_lock s) (sy_table s) p (sy_ids s) (sy_space s)
    (sy_objs s) (sy_chans s) (sy_thr s) (sy_gen s) (sy_log s) (sy_crash s).

Definition set_ids (s : sys) (l : list Z) : sys :=
  mkSys (sy_size s) (sy_lock s) (sy_table s) (sy_pool s) l (sy_space s)
    (sy_objs s) (sy_chans s) (sy_thr s) (sy_gen s) (sy_log s) (sy_crash s).

Definition set_space (s : sys) (n : nat) : sys :=
  mkSys (sy_size s) (sy_lock s) (sy_table s) (sy_pool s) (sy_ids s) n
    (sy_objs s) (sy_chans s) (sy_thr s) (sy_gen s) (sy_log s) (sy_crash s).

Definition set_objs (s : sys) (l : list (option nat)) : sys :=
  mkSys (sy_size s) (sy_lock s) (sy_table s) (sy_pool s) (sy_ids s) (sy_space s)
    l (sy_chans s) (sy_thr s) (sy_gen s) (sy_log s) (sy_crash s).

Definition set_chans (s : sys) (l : list bool) : sys :=
  mkSys (sy_size s) (sy_lock s) (sy_table s) (sy_pool s) (sy_ids s) (sy_space s)
    (sy_objs s) l (sy_thr s) (sy_gen s) (sy_log s) (sy_crash s).

Definition set_gen (s : sys) (n : nat) : sys :=
  mkSys (sy_size s) (sy_lock s) (sy_table s) (sy_pool s) (sy_ids s) (sy_space s)
    (sy_objs s) (sy_chans s) (sy_thr s) n (sy_log s) (sy_crash s).

Definition set_thr (s : sys) (l : list pc) : sys :=
  mkSys (sy_size s) (sy_lock s) (sy_table s) (sy_pool s) (sy_ids s) (sy_space s)
    (sy_objs s) (sy_chans s) l (sy_gen s) (sy_log s) (sy_crash s).

Definition note (s : sys) (e : event) : sys :=
  mkSys (sy_size s) (sy_lock s) (sy_table s) (sy_pool s) (sy_ids s) (sy_space s)
    (sy_objs s) (sy_chans s) (sy_thr s) (sy_gen s) (e :: sy_log s) (sy_crash s).

(** A panic that nobody recovers ends the process: no goroutine runs on. *)
Definition crash (s : sys) (i : nat) : sys :=
  mkSys (sy_size s) (sy_lock s) (sy_table s) (sy_pool s) (sy_ids s) (sy_space s)
    (sy_objs s) (sy_chans s) (sy_thr s) (sy_gen s) (ECrash i :: sy_log s) true.

(** [s.data] of state object [o] (nil for an object that never had one). *)
Definition data_of (s : sys) (o : nat) : option nat :=
  match nth_error (sy_objs s) o with Some c => c | None => None end.

Definition closed (s : sys) (c : nat) : bool := nth c (sy_chans s) false.

(** The next step of goroutine [i], where only one thing can happen.
    [None]: blocked (or the step is one of the other actions). *)
Definition step_of (s : sys) (i : nat) (p : pc) : option sys :=
  match p with
  | PIdle => None
  (* transactions.go:107 *)
  | IDSpace =>
      match sy_space s with
      | O => None
      | S n => Some (set_pc (set_space s n) i IDFree)
      end
  (* 110 *)
  | IDFree =>
      match sy_ids s with
      | [] => None
      | id :: t => Some (set_pc (set_ids s t) i (IDGet id))
      end
  (* 112-113: blocks while the channel is full *)
  | IDBack =>
      if Nat.ltb (sy_space s) (sy_size s)
      then Some (note (set_pc (set_space s (S (sy_space s))) i PIdle) (ENoId i))
      else None
  (* 120: see AGet *)
  | IDGet _ => None
  (* 123: a fresh unbuffered channel *)
  | IDMake id o =>
      let c := length (sy_chans s) in
      Some (set_pc (set_chans (set_objs s (upd (sy_objs s) o (Some c)))
                              (sy_chans s ++ [false])) i (IDLock id o))
  (* 125-128 *)
  | IDLock id o =>
      match sy_lock s with
      | Some _ => None
      | None =>
          let g := sy_gen s in
          Some (note (set_gen (set_pc (set_table s ((id, (o, g)) :: without id (sy_table s)))
                                      i PIdle) (S g)) (EGot i id o g))
      end
  (* 133-139 *)
  | PutLock id =>
      match sy_lock s with
      | Some _ => None
      | None =>
          match lookup id (sy_table s) with
          | None => Some (note (set_pc s i PIdle) (EPutErr i id))
          | Some (o, g) => Some (set_pc (set_lock s (Some i)) i (PutClose id o g))
          end
      end
  (* 141: closing a closed channel or a nil channel panics *)
  | PutClose id o g =>
      match data_of s o with
      | None => Some (crash s i)
      | Some c =>
          if closed s c then Some (crash s i)
          else Some (note (set_pc (set_chans s (upd (sy_chans s) c true)) i (PutPool id o g))
                          (EClosed i id g))
      end
  (* 142 *)
  | PutPool id o g => Some (set_pc (set_pool s (o :: sy_pool s)) i (PutId id o g))
  (* 143: blocks while the channel is full *)
  | PutId id o g =>
      if Nat.ltb (length (sy_ids s)) cap_ids
      then Some (set_pc (set_ids s (sy_ids s ++ [id])) i (PutSpace id o g))
      else None
  (* 144: blocks while the channel is full *)
  | PutSpace id o g =>
      if Nat.ltb (sy_space s) (sy_size s)
      then Some (set_pc (set_space s (S (sy_space s))) i (PutDel id o g))
      else None
  (* 145-146, and the deferred Unlock of 134 *)
  | PutDel id o g =>
      Some (note (set_pc (set_lock (set_table s (without id (sy_table s))) None) i PIdle)
                 (EPut i id g))
  (* 68-74 *)
  | SendLock id v =>
      match sy_lock s with
      | Some _ => None
      | None =>
          match lookup id (sy_table s) with
          | None => Some (note (set_pc s i PIdle) (ESendErr i id v))
          | Some (o, g) => Some (note (set_pc s i (SendEval id v o g)) (ESendFound i id v g))
          end
      end
  (* 75: the channel operand is evaluated, then the send blocks *)
  | SendEval id v o g => Some (set_pc s i (SendWait id v (data_of s o) g))
  (* 75: sending on a closed channel panics; otherwise see ADeliver *)
  | SendWait id v c g =>
      match c with
      | Some ch => if closed s ch then Some (crash s i) else None
      | None => None
      end
  (* 82-88 *)
  | RecvLock id =>
      match sy_lock s with
      | Some _ => None
      | None =>
          match lookup id (sy_table s) with
          | None => Some (note (set_pc s i PIdle) (ERecvErr i id))
          | Some (o, g) => Some (set_pc s i (RecvEval id o g))
          end
      end
  (* 95: the channel operand is evaluated *)
  | RecvEval id o g => Some (set_pc s i (RecvWait id (data_of s o) g))
  (* 95-96: a closed channel yields nil; otherwise see ADeliver and ATimeout *)
  | RecvWait id c g =>
      match c with
      | Some ch => if closed s ch then Some (note (set_pc s i PIdle) (ERecvNil i id)) else None
      | None => None
      end
  end.

(** One step of the whole system; [None]: the action is not possible. *)
Definition exec (s : sys) (a : action) : option sys :=
  if sy_crash s then None else
  match a with
  | ASpawn => Some (set_thr s (sy_thr s ++ [PIdle]))
  | ACall i o =>
      match nth_error (sy_thr s) i with
      | Some PIdle => Some (set_pc s i (entry_of o))
      | _ => None
      end
  | AStep i =>
      match nth_error (sy_thr s) i with
      | Some p => step_of s i p
      | None => None
      end
  | ATimeout i =>
      match nth_error (sy_thr s) i with
      (* transactions.go:115-116 *)
      | Some IDSpace => Some (note (set_pc s i PIdle) (ENoId i))
      (* 111 *)
      | Some IDFree => Some (set_pc s i IDBack)
      (* 97-98 *)
      | Some (RecvWait id c g) => Some (note (set_pc s i PIdle) (ERecvTimeout i id))
      | _ => None
      end
  (* 120; New 44-47 *)
  | AGet i k =>
      match nth_error (sy_thr s) i with
      | Some (IDGet id) =>
          match k with
          | None =>
              Some (set_pc (set_objs s (sy_objs s ++ [None])) i
                           (IDMake id (length (sy_objs s))))
          | Some n =>
              match nth_error (sy_pool s) n with
              | Some o => Some (set_pc (set_pool s (del (sy_pool s) n)) i (IDMake id o))
              | None => None
              end
          end
      | _ => None
      end
  (* 75-76 and 95-96: a sender and a receiver meet on the same open channel *)
  | ADeliver i j =>
      match nth_error (sy_thr s) i, nth_error (sy_thr s) j with
      | Some (SendWait sid v (Some c) sg), Some (RecvWait rid (Some d) rg) =>
          if Nat.eqb c d && negb (closed s c) then
            Some (note (set_pc (set_pc s i PIdle) j PIdle) (EDeliver i sid sg j rid rg v))
          else None
      | _, _ => None
      end
  | AGc k => Some (set_pool s (del (sy_pool s) k))
  end.

(** A run of the system. *)
Fixpoint run (s : sys) (l : list action) : option sys :=
  match l with
  | [] => Some s
  | a :: t => match exec s a with Some s' => run s' t | None => None end
  end.

Definition reachable (size : nat) (s : sys) : Prop :=
  exists l, run (init size) l = Some s.
