(** What the properties of finding devices observe. *)
From Verif Require Import ModelRun SpecWire SpecNet SpecLayers SpecServices SpecObs SpecClient SpecRun.
Open Scope Z_scope.

(** the entry for a device that announced itself with [i] from [ip], [port] *)
Definition announced (i : iam) (ip : list Z) (port : Z) : found :=
  mkFound (i_id i) (oid_inst (i_id i)) (UDPToAddress ip port) (i_maxapdu i) (i_seg i) (i_vendor i) 0 0 (Some (ip, port)).
(** no announcement of instance [x] among the published messages *)
Definition silent_on (x : Z) (ps : list (Z * pub)) : Prop := forall k j, In (k, PubIAm j) ps -> oid_inst (i_id j) <> x.
(** a found device as the argument of the calls *)
Definition device_of (x : found) : device := mkDev (f_id x) (f_maxapdu x) (f_addr x).
