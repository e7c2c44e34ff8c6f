(** * Datagrams that are not frames for this client *)
From Verif Require Import ModelClient SpecWire SpecLayers SpecClient.
Open Scope Z_scope.

(** Annex J: the first octet is 0x81, the third and fourth hold the length of the whole;
    6.2.1: the version is 1 *)
Definition is_frame (b : list Z) : Prop :=
  exists f v r, b = spec_bvlc f (v :: r) /\ v = 1.
(** an effect without the header of a network message, of which only the network it comes
    from is used *)
Definition seen (e : effect) : effect :=
  match e with
  | EPubNpdu k n => EPubNpdu k (mkNpdu 0 None (n_src n) (n_vendor n) (n_netmsg n) (n_msgtype n) false 0 0)
  | e => e
  end.
(** what a datagram does: its effects, and whether the process panics *)
Definition does (known : Z -> bool) (src : address) (b : list Z) : list effect * bool :=
  (map seen (fst (handleMsg known src b)), snd (handleMsg known src b)).
(** a message for another network: a destination that is neither empty nor the global
    broadcast.  [nets]: the networks the client is on *)
Definition elsewhere (nets : list Z) (n : npdu) : Prop :=
  match n_dest n with Some a => a_net a <> 0 /\ a_net a <> 65535 /\ ~ In (a_net a) nets | None => False end.
