(** * The functions of package network that begin with a Who-Is

    [ModelNetScript] has what they do after it.  Here are the options they ask with and
    what they make of its result. *)
From Verif Require Import ModelClient ModelSystem ModelScan ModelScript ModelNet ModelNetScript.
Import ListNotations.
Open Scope Z_scope.

(** network/whois.go:24-47: a failed Who-Is has no devices, its error is returned *)
Definition NetworkDiscover_rest (w : cerr + list found) : script (list bdevice) :=
  match w with inl e => SEnd (CErr e) | inr fs => net_discover_script fs end.
(** network/discover.go:89-93 *)
Definition DeviceDiscover_rest (d : ndevice) (w : cerr + list found) : script (list ptr * ndevice) :=
  match w with inl e => SEnd (CErr e) | inr fs => discover_script [] d fs end.
(** network/objects.go:14-18 *)
Definition objects_whois (id : Z) : whoIsOpts := mkWho id id true 0.
(** network/objects.go:19-29 *)
Definition DeviceObjects_rest (d : ndevice) (id : Z) (w : cerr + list found) : script (list object_id * ndevice) :=
  DeviceObjects_script d id (Some w).
(** network/discover.go:22-42 *)
Definition GetDevicePoints_rest (d : ndevice) (id : Z) (w : cerr + list found) : script (list pointDetails) :=
  GetDevicePoints_script d id w.
