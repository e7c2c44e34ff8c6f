(** * What the publish/subscribe manager promises *)

Require Import List ZArith Bool.
Require Import Verif.ModelUtsm.
Import ListNotations.
Open Scope Z_scope.

(** Range of subscriber [s] and everything published within it since it
    registered, in the order of publication; from the log alone. *)
Fixpoint meant_for (s : nat) (log : list uevent) : option (Z * Z * list Z) :=
  match log with
  | [] => None
  | USub _ s' lo hi :: t => if Nat.eqb s' s then Some (lo, hi, []) else meant_for s t
  | UPub _ id v :: t =>
      match meant_for s t with
      | Some (lo, hi, l) => if (lo <=? id) && (id <=? hi) then Some (lo, hi, l ++ [v])
                            else Some (lo, hi, l)
      | None => None
      end
  | _ :: t => meant_for s t
  end.

(** The subscriber of a Subscribe call in progress and what it has received. *)
Definition receiving (p : upc) : option (nat * list Z) :=
  match p with
  | SubTime s store | SubWait s store | SubRem s store => Some (s, store)
  | _ => None
  end.

(** The publication a goroutine is carrying out. *)
Definition publishing (p : upc) : option (Z * Z) :=
  match p with
  | PubLoop id v _ | PubSub id v _ _ | PubSend id v _ _ | PubUnlock id v _ _ => Some (id, v)
  | _ => None
  end.

(** The content of its channel. *)
Definition queue (u : usys) (s : nat) : list Z :=
  match nth_error (u_objs u) s with Some x => sb_q x | None => [] end.

(** Steps a goroutine can take once it is inside a call. *)
Definition blocked (u : usys) (i : nat) : Prop :=
  uexec u (VStep i) = None /\ uexec u (VRecv i) = None /\ uexec u (VTimeout i) = None.

(** Inside a call. *)
Definition busy (u : usys) (i : nat) : Prop :=
  exists p, nth_error (u_thr u) i = Some p /\ p <> UIdle.

(** All goroutines that are inside a call are blocked, and there is one. *)
Definition deadlocked (u : usys) : Prop :=
  (exists i, busy u i) /\ forall i, busy u i -> blocked u i.

(** The pattern: a publisher holds both mutexes and waits for room in the channel
    of [s], while the subscriber is not at its select but waits for a mutex. *)
Definition embrace (u : usys) (i j s : nat) : Prop :=
  exists id v rest, nth_error (u_thr u) i = Some (PubSend id v s rest) /\
  (length (queue u s) >= 1)%nat /\
  exists store, nth_error (u_thr u) j = Some (SubTime s store) \/
                nth_error (u_thr u) j = Some (SubRem s store).

(** Every registered subscriber has room. *)
Definition all_room (u : usys) : Prop := forall s, In s (u_subs u) -> queue u s = [].

(** The publication a goroutine is carrying out: its key and the subscribers it has
    not served yet. *)
Definition left_to (p : upc) : option (Z * list nat) :=
  match p with
  | PubLoop id _ l | PubUnlock id _ _ l => Some (id, l)
  | PubSub id _ s l | PubSend id _ s l => Some (id, s :: l)
  | _ => None
  end.

(** Publisher [k] has still to serve subscriber [s], whose channel is full and whose
    goroutine [j] will not take anything from it any more: it has timed out and
    waits for the mutex of the manager, or waits for its own mutex, which the
    publisher holds. *)
Definition doomed (u : usys) (k j s : nat) : Prop :=
  exists p id l x store, nth_error (u_thr u) k = Some p /\ left_to p = Some (id, l) /\ In s l /\
  nth_error (u_objs u) s = Some x /\ sb_lo x <= id <= sb_hi x /\ sb_q x <> [] /\
  (nth_error (u_thr u) j = Some (SubRem s store) \/
   nth_error (u_thr u) j = Some (SubTime s store) /\ exists v r, p = PubSend id v s r).

(** Nothing enters, registers or returns ever again. *)
Definition silent_forever (u : usys) : Prop := forall l u', urun u l = Some u' -> u_log u' = u_log u.

(** The call of goroutine [i] has returned. *)
Definition returns_of (i : nat) (e : uevent) : Prop := e = UPubRet i \/ exists s store, e = URet i s store.
