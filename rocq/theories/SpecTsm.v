(** * What a user of the transaction manager observes

    Everything here is defined from the log of returned calls alone. *)

Require Import List ZArith Bool.
Require Import Verif.ModelTsm.
Import ListNotations.
Open Scope Z_scope.

(** The ids of a list without the first occurrence of [id]. *)
Fixpoint release (id : Z) (l : list Z) : list Z :=
  match l with
  | [] => []
  | x :: t => if x =? id then t else x :: release id t
  end.

(** Ids handed out by ID and not yet released by Put, oldest event last in the
    log.  A duplicate id in this list is an id handed out twice. *)
Fixpoint in_progress (log : list event) : list Z :=
  match log with
  | [] => []
  | EGot _ id _ _ :: t => id :: in_progress t
  | EPut _ id _ :: t => release id (in_progress t)
  | _ :: t => in_progress t
  end.

(** Ids taken by calls of ID that have not returned yet. *)
Definition handing (p : pc) : list Z :=
  match p with
  | IDGet id => [id]
  | IDMake id _ => [id]
  | IDLock id _ => [id]
  | _ => []
  end.

(** Ids given back by calls of Put that have not returned yet: they are free
    again and still in progress for the callers. *)
Definition returning (p : pc) : list Z :=
  match p with
  | PutSpace id _ _ => [id]
  | PutDel id _ _ => [id]
  | _ => []
  end.

(** Slots held by calls of ID that have not returned yet. *)
Definition taking_slot (p : pc) : nat :=
  match p with
  | IDFree | IDBack | IDGet _ | IDMake _ _ | IDLock _ _ => 1
  | _ => 0
  end.

(** Slots given back by calls of Put that have not returned yet. *)
Definition giving_slot (p : pc) : nat :=
  match p with PutDel _ _ _ => 1 | _ => 0 end.

Fixpoint total (f : pc -> nat) (l : list pc) : nat :=
  match l with [] => 0 | p :: t => f p + total f t end.

(** The ids of transactions.go:53-55. *)
Definition all_ids : list Z := map Z.of_nat (seq 1 254).

(** A sender that a Put overtakes: the log, newest first, shows that [Send(id, v)]
    of goroutine [i] found transaction [g], and that a Put closed [g]. *)
Definition overtaken (log : list event) (i : nat) (id v : Z) (g : nat) : Prop :=
  In (ESendFound i id v g) log /\ exists k, In (EClosed k id g) log.

(** Steps in which sync.Pool hands out an object that was used before. *)
Definition reuses (a : action) : bool :=
  match a with AGet _ (Some _) => true | _ => false end.

(** Goroutines outside ID and Put. *)
Definition outside (p : pc) : bool :=
  match p with
  | PIdle | IDSpace | PutLock _ | SendLock _ _ | SendEval _ _ _ _ | SendWait _ _ _ _
  | RecvLock _ | RecvEval _ _ _ | RecvWait _ _ _ => true
  | _ => false
  end.

(** Nothing but goroutine [i] itself changes. *)
Definition untouched (i : nat) (s s' : sys) : Prop :=
  sy_size s' = sy_size s /\ sy_lock s' = sy_lock s /\ sy_table s' = sy_table s /\
  sy_pool s' = sy_pool s /\ sy_ids s' = sy_ids s /\ sy_space s' = sy_space s /\
  sy_objs s' = sy_objs s /\ sy_chans s' = sy_chans s /\ sy_crash s' = sy_crash s /\
  forall j, j <> i -> nth_error (sy_thr s') j = nth_error (sy_thr s) j.
