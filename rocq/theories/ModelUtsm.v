(** * Model of the unconfirmed publish/subscribe manager (utsm/*.go)

    Publish is called by the goroutine of every received I-Am, Network-Number-Is
    and I-Am-Router (device.go:150-159, 194), Subscribe by WhoIs and the network
    scans (whois.go, whoisrouter.go, whatnetwork.go).  As in [ModelTsm], a state machine over
    explicit steps; an action names the goroutine and the choice taken.

    Simplified:
    - time does not appear: [lastReceived] and the timeouts (subscriber.go:13-15,
      utsm.go:68, 87-88) are left out and a timeout may fire at any moment that
      the select of subscriber.go:65-70 is reached ([VTimeout]);
    - Subscribe is called without options, as everywhere in the code: an option
      could only lock the mutex of the still private subscriber;
    - values are integers;
    - the subscriber objects are numbered in order of creation. *)

Require Import List ZArith Bool Lia.
Require Import Verif.ModelTsm.
Import ListNotations.
Open Scope Z_scope.

(** subscriber, subscriber.go:9-19 *)
Record sub := mkSub {
  sb_lo : Z;
  sb_hi : Z;
  sb_q : list Z;                (* content of the channel data, capacity 1 *)
  sb_lock : option nat          (* holder of the mutex *)
}.

(** utsm.go:80 *)
Definition cap_q : nat := 1.

Inductive upc :=
| UIdle
(* Publish, utsm.go:61-73 *)
| PubLock (id v : Z)                            (* 62 *)
| PubLoop (id v : Z) (rest : list nat)          (* 65 *)
| PubSub (id v : Z) (s : nat) (rest : list nat) (* 67 *)
| PubSend (id v : Z) (s : nat) (rest : list nat)   (* 69 *)
| PubUnlock (id v : Z) (s : nat) (rest : list nat) (* 70 *)
(* Subscribe, subscriber.go:53-72 *)
| SubNew (lo hi : Z)                            (* utsm.go:76-82 *)
| SubReg (lo hi : Z) (s : nat)                  (* utsm.go:83-91 *)
| SubTime (s : nat) (store : list Z)            (* subscriber.go:62, 44-50 *)
| SubWait (s : nat) (store : list Z)            (* subscriber.go:65 *)
| SubRem (s : nat) (store : list Z).            (* subscriber.go:56, utsm.go:100-119 *)

Inductive uevent :=
| UPub (i : nat) (id v : Z)             (* Publish(id, v) has entered (holds the mutex) *)
| UPubRet (i : nat)                     (* Publish has returned *)
| USub (i s : nat) (lo hi : Z)          (* the call Subscribe(lo, hi) has registered s *)
| URet (i s : nat) (store : list Z).    (* Subscribe has returned store *)

Record usys := mkU {
  u_lock : option nat;                  (* holder of Manager.mutex *)
  u_subs : list nat;                    (* Manager.subs *)
  u_objs : list sub;
  u_thr : list upc;
  u_log : list uevent                   (* newest first *)
}.

Definition uinit : usys := mkU None [] [] [] [].

Inductive uop := CallPub (id v : Z) | CallSub (lo hi : Z).

Definition uentry (o : uop) : upc :=
  match o with CallPub id v => PubLock id v | CallSub lo hi => SubNew lo hi end.

Inductive uaction :=
| VSpawn
| VCall (i : nat) (o : uop)
| VStep (i : nat)
| VRecv (i : nat)                       (* subscriber.go:68 *)
| VTimeout (i : nat).                   (* subscriber.go:66 *)

(** ** removeSubscriber, utsm.go:104-119 *)

(** copy(l[i:], l[i+1:]) : the built-in copies as if through a buffer. *)
Definition shift {A} (l : list A) (i : nat) : list A :=
  firstn i l ++ skipn (S i) l ++ skipn (length l - 1) l.

(** The loop of 104: index of the first occurrence. *)
Fixpoint index_of (s : nat) (l : list nat) : option nat :=
  match l with
  | [] => None
  | x :: t => if Nat.eqb x s then Some O
              else match index_of s t with Some i => Some (S i) | None => None end
  end.

(** 110-117; the nil written at 113 lies behind the new end. *)
Definition remove_sub (s : nat) (l : list nat) : list nat :=
  match index_of s l with
  | None => l
  | Some i => firstn (length l - 1) (shift l i)
  end.

Definition in_range (x : sub) (id : Z) : bool := (sb_lo x <=? id) && (id <=? sb_hi x).

Definition u_set (u : usys) (i : nat) (p : upc) : usys :=
  mkU (u_lock u) (u_subs u) (u_objs u) (upd (u_thr u) i p) (u_log u).
Definition u_setlock (u : usys) (l : option nat) : usys :=
  mkU l (u_subs u) (u_objs u) (u_thr u) (u_log u).
Definition u_setsubs (u : usys) (l : list nat) : usys :=
  mkU (u_lock u) l (u_objs u) (u_thr u) (u_log u).
Definition u_setobjs (u : usys) (l : list sub) : usys :=
  mkU (u_lock u) (u_subs u) l (u_thr u) (u_log u).
Definition u_setthr (u : usys) (l : list upc) : usys :=
  mkU (u_lock u) (u_subs u) (u_objs u) l (u_log u).
Definition u_note (u : usys) (e : uevent) : usys :=
  mkU (u_lock u) (u_subs u) (u_objs u) (u_thr u) (e :: u_log u).

Definition ustep (u : usys) (i : nat) (p : upc) : option usys :=
  match p with
  | UIdle => None
  (* utsm.go:62 *)
  | PubLock id v =>
      match u_lock u with
      | Some _ => None
      | None => Some (u_note (u_set (u_setlock u (Some i)) i (PubLoop id v (u_subs u)))
                             (UPub i id v))
      end
  (* 65-66; after the last one the deferred Unlock of 63 *)
  | PubLoop id v [] => Some (u_note (u_set (u_setlock u None) i UIdle) (UPubRet i))
  | PubLoop id v (s :: rest) =>
      match nth_error (u_objs u) s with
      | None => None
      | Some x => if in_range x id then Some (u_set u i (PubSub id v s rest))
                  else Some (u_set u i (PubLoop id v rest))
      end
  (* 67 *)
  | PubSub id v s rest =>
      match nth_error (u_objs u) s with
      | None => None
      | Some x =>
          match sb_lock x with
          | Some _ => None
          | None => Some (u_set (u_setobjs u (upd (u_objs u) s
                             (mkSub (sb_lo x) (sb_hi x) (sb_q x) (Some i))))
                          i (PubSend id v s rest))
          end
      end
  (* 69: blocks while the buffer is full *)
  | PubSend id v s rest =>
      match nth_error (u_objs u) s with
      | None => None
      | Some x =>
          if Nat.ltb (length (sb_q x)) cap_q then
            Some (u_set (u_setobjs u (upd (u_objs u) s
                     (mkSub (sb_lo x) (sb_hi x) (sb_q x ++ [v]) (sb_lock x))))
                  i (PubUnlock id v s rest))
          else None
      end
  (* 70 *)
  | PubUnlock id v s rest =>
      match nth_error (u_objs u) s with
      | None => None
      | Some x => Some (u_set (u_setobjs u (upd (u_objs u) s
                           (mkSub (sb_lo x) (sb_hi x) (sb_q x) None)))
                        i (PubLoop id v rest))
      end
  (* 76-82 *)
  | SubNew lo hi =>
      Some (u_set (u_setobjs u (u_objs u ++ [mkSub lo hi [] None])) i
                  (SubReg lo hi (length (u_objs u))))
  (* 83-91; the mutex of the new subscriber is free *)
  | SubReg lo hi s =>
      match u_lock u, nth_error (u_objs u) s with
      | None, Some _ =>
          Some (u_note (u_set (u_setsubs u (u_subs u ++ [s])) i (SubTime s []))
                       (USub i s lo hi))
      | _, _ => None
      end
  (* subscriber.go:44-50: waits for the mutex of the subscriber *)
  | SubTime s store =>
      match nth_error (u_objs u) s with
      | None => None
      | Some x =>
          match sb_lock x with
          | Some _ => None
          | None => Some (u_set u i (SubWait s store))
          end
      end
  (* subscriber.go:65: see VRecv and VTimeout *)
  | SubWait _ _ => None
  (* utsm.go:101-118, subscriber.go:67 *)
  | SubRem s store =>
      match u_lock u with
      | Some _ => None
      | None => Some (u_note (u_set (u_setsubs u (remove_sub s (u_subs u))) i UIdle)
                             (URet i s store))
      end
  end.

Definition uexec (u : usys) (a : uaction) : option usys :=
  match a with
  | VSpawn => Some (u_setthr u (u_thr u ++ [UIdle]))
  | VCall i o =>
      match nth_error (u_thr u) i with
      | Some UIdle => Some (u_set u i (uentry o))
      | _ => None
      end
  | VStep i =>
      match nth_error (u_thr u) i with
      | Some p => ustep u i p
      | None => None
      end
  (* subscriber.go:68-69 *)
  | VRecv i =>
      match nth_error (u_thr u) i with
      | Some (SubWait s store) =>
          match nth_error (u_objs u) s with
          | Some x =>
              match sb_q x with
              | v :: q =>
                  Some (u_set (u_setobjs u (upd (u_objs u) s
                           (mkSub (sb_lo x) (sb_hi x) q (sb_lock x))))
                        i (SubTime s (store ++ [v])))
              | [] => None
              end
          | None => None
          end
      | _ => None
      end
  (* subscriber.go:66-67 *)
  | VTimeout i =>
      match nth_error (u_thr u) i with
      | Some (SubWait s store) => Some (u_set u i (SubRem s store))
      | _ => None
      end
  end.

Fixpoint urun (u : usys) (l : list uaction) : option usys :=
  match l with
  | [] => Some u
  | a :: t => match uexec u a with Some u' => urun u' t | None => None end
  end.

Definition ureachable (u : usys) : Prop := exists l, urun uinit l = Some u.
