(** * A client whose socket is closed *)
From Verif Require Import ModelClient ModelSystem ModelScan ModelWhole ModelTime.
Import ListNotations.

(** no transmission succeeds: datalink/udp.go:96-102 after udp.go:88-93 *)
Definition no_send (l : list taction) : Prop := forall i, ~ In (TDo (ZW (WTx i true))) l.
