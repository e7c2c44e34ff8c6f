(** What the property of the command "multi" observes. *)
From Verif Require Import ModelCmdMulti SpecWire SpecLayers SpecServices SpecObs SpecClient SpecNet.
Open Scope list_scope.
Open Scope Z_scope.

(** flags that select a device: station [mf_mac] of network [mf_net] behind [ip] *)
Definition good_multi (f : mflags) (ip : list Z) : Prop :=
  mf_list f = false /\ mf_ip f = spec_dotted ip /\ is_ip ip /\ is_port (mf_port f) /\ 0 <= mf_net f < 65536 /\ is_byte (mf_mac f)
  /\ 0 <= mf_device f <= 4194303.
(** a client can be made with the interface and port of the flags *)
Definition starts (ifs : text -> option (list text)) (listen : option Z -> bool) (f : mflags) : Prop :=
  exists c, NewClient ifs listen (mkCB (mf_iface f) [] (mf_myport f) 0 0) = ROk (c, true).
(** what is asked for: name and present value of analog outputs 1 and 2 *)
Definition multi_asked : list (object_id * list (Z * Z)) :=
  [(mkOid 1 1, [(77, whole)]); (mkOid 1 1, [(85, whole)]); (mkOid 1 2, [(77, whole)]); (mkOid 1 2, [(85, whole)])].
(** the datagram with the request [apdu] to the device *)
Definition multi_dgram (f : mflags) (ip : list Z) (apdu : list Z) : datagram :=
  mkDgram ip (mf_port f) (point_frame (mf_net f) (mf_mac f) apdu).
(** the device answers the reads of property [p] of its device object *)
Definition device_says (e : env) (f : mflags) (ip : list Z) (p : Z) (vs : list sent) (g : datagram) : Prop :=
  exists id, ev_id e = Some id /\ is_byte id /\ Forall supported vs
  /\ g = multi_dgram f ip (spec_read_request id (mkOid 8 (mf_device f)) p whole)
  /\ at_sent (ev_att e 0 g) = true /\ at_reply (ev_att e 0 g) = Some (PBytes (spec_read_ack id (mkOid 8 (mf_device f)) p whole vs)).
(** attempt [k] at the last request, [g], brings [b] *)
Definition brought (e : env) (k : nat) (g : datagram) (b : list Z) : Prop :=
  at_sent (ev_att e k g) = true /\ at_reply (ev_att e k g) = Some (PBytes b).
(** the request for what is asked for, network layer included *)
Definition multi_size (f : mflags) : Z := if mf_net f =? 0 then 42 else 47.
