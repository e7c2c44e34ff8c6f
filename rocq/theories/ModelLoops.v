(** * The receive loops of a client

    Every Who-Is of package network starts another one.  [ModelRun] has one loop as a
    function of what the socket yields; here any number of them share the socket, one
    statement at a time.  No proofs in this file. *)
From Verif Require Export ModelRun.
Import ListNotations.
Open Scope Z_scope.

(** the calls a program makes: NetworkRun or ClientRun in a goroutine of its own, and the
    functions of package network *)
Inductive napi :=
| NRun                      (* go net.NetworkRun(), go client.ClientRun() *)
| NWhois | NDiscover        (* network/whois.go:16-20, 22-48 *)
| DWhois                    (* network/whois.go:10-14 *)
| DDiscover                 (* network/discover.go:88-120 *)
| DObjects (check : bool)   (* network/objects.go:12-55 *)
| DPoints                   (* network/discover.go:22-42 *)
| NOther.                   (* Read, Write, PointDetails and the like *)
(** the loops a call starts: network/whois.go:11, 17, 23, network/discover.go:89,
    network/objects.go:13-14, network/discover.go:24; network/base.go:53-58 on a network
    that has a client *)
Definition starts (c : napi) : nat :=
  match c with
  | NRun | NWhois | NDiscover | DWhois | DDiscover | DObjects true | DPoints => 1
  | DObjects false | NOther => 0
  end.
(** where a loop is, device.go:117-129: before 119-122, in Receive (123), with a datagram
    before 127; after the loop *)
Inductive lpc := LTop | LWait | LGot (m : address * list Z) | LEnd.
(** the socket, the loops, whether the process has panicked, and what was handed to
    handleMsg, first one first *)
Record loops := mkLoops { lp_open : bool; lp_pcs : list lpc; lp_crash : bool; lp_handed : list (address * list Z) }.
(** the client as NewClient makes it, device.go:53-115 *)
Definition loops_init : loops := mkLoops true [] false [].
Inductive laction :=
| LCall (c : napi)
| LTurn (i : nat)                                          (* loop [i] calls Receive *)
| LTake (i : nat) (ip : list Z) (port : Z) (data : list Z) (* it gets a datagram *)
| LFail (i : nat)                                          (* it gets an error *)
| LHand (i : nat)                                          (* it starts the handler *)
| LClose.                                                  (* device.go:285-301, datalink/udp.go:88-93 *)
Fixpoint set_pc (l : list lpc) (i : nat) (p : lpc) : list lpc :=
  match l, i with
  | [], _ => []
  | _ :: r, O => p :: r
  | x :: r, S j => x :: set_pc r j p
  end.
Definition with_pc (s : loops) (i : nat) (p : lpc) : loops := mkLoops (lp_open s) (set_pc (lp_pcs s) i p) (lp_crash s) (lp_handed s).
(** one step.  The socket gives every datagram to one of the loops that wait for it
    (ReadFromUDP); a closed one gives errors only.  Panics of the handlers are left out,
    see C24-C31 and C93. *)
Definition lexec (size : Z) (s : loops) (a : laction) : option loops :=
  if lp_crash s then None else
  match a with
  | LCall c => Some (mkLoops (lp_open s) (lp_pcs s ++ repeat LTop (starts c)) false (lp_handed s))
  | LTurn i => match nth_error (lp_pcs s) i with Some LTop => Some (with_pc s i LWait) | _ => None end
  | LTake i ip port data =>
    match nth_error (lp_pcs s) i with
    | Some LWait =>
      if lp_open s then
        match udpReceive size ip port data with
        | ROk m => Some (with_pc s i (LGot m))
        | RPanic => Some (mkLoops true (lp_pcs s) true (lp_handed s))
        end
      else None
    | _ => None
    end
  | LFail i => match nth_error (lp_pcs s) i with Some LWait => Some (with_pc s i LEnd) | _ => None end
  | LHand i =>
    match nth_error (lp_pcs s) i with
    | Some (LGot m) => Some (mkLoops (lp_open s) (set_pc (lp_pcs s) i LTop) false (lp_handed s ++ [m]))
    | _ => None
    end
  | LClose => Some (mkLoops false (lp_pcs s) false (lp_handed s))
  end.
Fixpoint lrun (size : Z) (s : loops) (l : list laction) : option loops :=
  match l with
  | [] => Some s
  | a :: r => match lexec size s a with Some s' => lrun size s' r | None => None end
  end.
