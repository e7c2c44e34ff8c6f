(** * Data races

    Two goroutines are about to access the same variable, one of them writing it, and
    nothing keeps either from going first.  An execution with two accesses that the Go
    memory model leaves unordered can be rearranged into one that comes to such a state.

    Variables: the channel field of the objects of the transaction manager, and the
    variable [err] a discovery call shares with the goroutine it starts.  All other
    shared variables of the client are accessed between Lock and Unlock only: states
    (tsm/transactions.go:68-70, 82-84, 125-127, 133-145), subs and the fields of the
    subscribers (utsm/utsm.go:62-70, 83-91, 101-118, utsm/subscriber.go:45-48), or not
    written after they became shared. *)
From Verif Require Import ModelClient ModelSystem ModelScan ModelWhole SpecWhole.
From Verif Require ModelTsm ModelUtsm.
Open Scope Z_scope.

Inductive variable := Data (o : nat)       (* data of state object o, tsm/transactions.go:23 *)
                    | Err (i : nat).       (* err of the discovery call of goroutine i, whois.go:47 *)
Inductive goroutine := Main (i : nat)      (* goroutine i *)
                     | Sender (i : nat).   (* the one started by its discovery call, whois.go:62 *)
Inductive kind := Reads | Writes.

Definition data_access (p : ModelTsm.pc) : option (nat * kind) :=
  match p with
  | ModelTsm.IDMake _ o => Some (o, Writes)                                     (* tsm/transactions.go:123 *)
  | ModelTsm.PutClose _ o _ => Some (o, Reads)                                  (* 141 *)
  | ModelTsm.SendEval _ _ o _ | ModelTsm.RecvEval _ o _ => Some (o, Reads)      (* 75, 95 *)
  | _ => None
  end.
Definition sender_of (x : sphase) : option sender :=
  match x with YSub _ t _ | YTest _ _ _ t _ | YWait _ _ _ t _ => Some t | _ => None end.

(** The next step of goroutine [who] can be taken and accesses [v].  Taking the error
    from the channel (whois.go:70) comes after the last step of the sender. *)
Inductive accesses (z : whole) : goroutine -> variable -> kind -> Prop :=
| acc_data : forall i p o k, nth_error (ModelTsm.sy_thr (w_tsm (z_w z))) i = Some p -> data_access p = Some (o, k) ->
    accesses z (Main i) (Data o) k
(* whois.go:66, when Subscribe returns *)
| acc_result : forall i q t e s store, nth_error (y_ph (z_y z)) i = Some (YSub q t e) ->
    nth_error (ModelUtsm.u_thr (y_u (z_y z))) i = Some (ModelUtsm.SubRem s store) -> ModelUtsm.u_lock (y_u (z_y z)) = None ->
    accesses z (Main i) (Err i) Writes
(* 67 *)
| acc_test : forall i q s store t e, nth_error (y_ph (z_y z)) i = Some (YTest q s store t e) -> accesses z (Main i) (Err i) Reads
(* 63 *)
| acc_sent : forall i x, nth_error (y_ph (z_y z)) i = Some x -> sender_of x = Some TNot -> accesses z (Sender i) (Err i) Writes
(* 64 *)
| acc_offer : forall i x f, nth_error (y_ph (z_y z)) i = Some x -> sender_of x = Some (TSent f) -> accesses z (Sender i) (Err i) Reads.

Definition race (z : whole) (a b : goroutine) (v : variable) : Prop :=
  a <> b /\ exists k, accesses z a v Writes /\ accesses z b v k.
