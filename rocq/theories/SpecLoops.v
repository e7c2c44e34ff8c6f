(** * What the properties of the receive loops observe *)
Require Import List ZArith Lia.
From Verif Require Import ModelLoops SpecRun.
Import ListNotations.
Open Scope Z_scope.

(** the loops that have not ended *)
Definition running (s : loops) : nat := length (filter (fun p => match p with LEnd => false | _ => true end) (lp_pcs s)).
(** the datagrams that loops have and that have no handler yet *)
Definition in_hand (s : loops) : list (address * list Z) := flat_map (fun p => match p with LGot m => [m] | _ => [] end) (lp_pcs s).
Definition count (f : laction -> bool) (l : list laction) : nat := length (filter f l).
(** how often the program has started the receive loop itself, how often it has called a
    function of package network that asks who is there, and the errors of the socket *)
Definition own_loops : list laction -> nat := count (fun a => match a with LCall NRun => true | _ => false end).
Definition scans : list laction -> nat :=
  count (fun a => match a with LCall (NWhois | NDiscover | DWhois | DDiscover | DPoints) | LCall (DObjects true) => true | _ => false end).
Definition failures : list laction -> nat := count (fun a => match a with LFail _ => true | _ => false end).
(** the datagrams that came, in order: source, port, octets *)
Definition came (l : list laction) : list (list Z * Z * list Z) :=
  flat_map (fun a => match a with LTake _ src port data => [(src, port, data)] | _ => [] end) l.
(** … and how one is passed on: its source and the first [size] octets *)
Definition passed_on (size : Z) (d : list Z * Z * list Z) (m : address * list Z) : Prop :=
  let '(src, port, data) := d in exists ip, ipv4_source src ip /\ m = (UDPToAddress ip port, firstn (Z.to_nat size) data).
(** a step of a loop *)
Definition of_loop (a : laction) : bool := match a with LTurn _ | LTake _ _ _ _ | LFail _ | LHand _ => true | _ => false end.
(** a datagram from [src] can be taken, now or after the loops have gone on *)
Definition hears (size : Z) (s : loops) : Prop :=
  forall src ip port data, ipv4_source src ip -> exists l i s', forallb of_loop l = true /\ failures l = 0%nat /\ lrun size s (l ++ [LTake i src port data]) = Some s'.
