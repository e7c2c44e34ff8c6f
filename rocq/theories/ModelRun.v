(** The receive loop and the socket below it: device.go:117-129 (ClientRun),
    datalink/udp.go:95-104 (Receive).  Functions cite file:lines of /repo. *)
From Verif Require Export ModelClient.

(** what the socket yields.  The socket is opened with network "udp" and no
    address (datalink/udp.go:75), so it also takes IPv6 datagrams. *)
Inductive sock := SRecv (ip : list Z) (port : Z) (data : list Z) | SErr.
(** datalink/udp.go:95-104 with 132-148: the first [size] octets of the datagram are
    kept, the rest is discarded by ReadFromUDP; indexing a nil IP panics *)
Definition udpReceive (size : Z) (ip : list Z) (port : Z) (data : list Z) : res (address * list Z) :=
  match To4 ip with
  | Some v4 => ROk (UDPToAddress v4 port, firstn (Z.to_nat size) data)
  | None => RPanic
  end.
(** how ClientRun stands after the socket yielded some results *)
Inductive run_state := Running | Stopped | Crashed.
(** device.go:117-129: the messages handed to handleMsg, in order (each in a
    goroutine of its own and with a buffer of its own: the pool is never given a
    buffer back), and the state of the loop *)
Fixpoint ClientRun (size : Z) (evs : list sock) : list (address * list Z) * run_state :=
  match evs with
  | [] => ([], Running)
  | SErr :: _ => ([], Stopped)
  | SRecv ip port data :: evs' =>
    match udpReceive size ip port data with
    | ROk m => let '(ms, st) := ClientRun size evs' in (m :: ms, st)
    | RPanic => ([], Crashed)
    end
  end.
