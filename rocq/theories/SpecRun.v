(** What the properties of the receive loop and of network messages observe. *)
From Verif Require Import ModelRun SpecWire SpecLayers SpecServices SpecClient.

(** an IPv4 source as the socket reports it: four octets, or IPv4-mapped *)
Definition mapped (ip : list Z) : list Z := [0; 0; 0; 0; 0; 0; 0; 0; 0; 0; 255; 255] ++ ip.
Definition ipv4_source (src ip : list Z) : Prop := length ip = 4%nat /\ (src = ip \/ src = mapped ip).
(** a socket result that a running client can take *)
Definition takes (s : sock) : Prop := match s with SRecv src _ _ => exists ip, ipv4_source src ip | SErr => False end.
(** a network-layer message: header [n], contents [w] *)
Definition network_message (n : npdu) (mt : Z) : Prop := npdu_ok n /\ n_netmsg n = true /\ n_msgtype n = mt.
(** the same header announcing an APDU *)
Definition plain_header (n : npdu) : npdu :=
  mkNpdu (n_version n) (n_dest n) (n_src n) 0 false 0 (n_reply n) (n_prio n) (n_hop n).
(** what the receive path publishes *)
Definition pub_of (e : effect) : list (Z * pub) :=
  match e with
  | EPubNpdu k n => [(k, PubNpdu n)] | EPubNets k l => [(k, PubNets l)] | EPubIAm k i => [(k, PubIAm i)]
  | EDeliver _ _ => []
  end.
Definition published (known : Z -> bool) (frames : list (address * list Z)) : list (Z * pub) :=
  flat_map (fun x => flat_map pub_of (fst (handleMsg known (fst x) (snd x)))) frames.
(** what a subscriber of 1..65534 gets of it (C55) *)
Definition network_range (ps : list (Z * pub)) : list pub := map snd (filter (in_range 1 65534) ps).
(** I-Am-Router-To-Network listing [nets], and Network-Number-Is [net] *)
Definition router_message (n : npdu) (nets : list Z) : list Z := spec_npdu n ++ flat_map (octets 2) nets.
Definition number_message (n : npdu) (net flag : Z) : list Z := spec_npdu n ++ octets 2 net ++ [flag].
Definition is_net (x : Z) : Prop := 1 <= x <= 65534.
Definition first_two (nets : list Z) : list Z :=
  match nets with a :: b :: _ => if a =? b then [a] else [a; b] | _ => [] end.
