(** * WhoIs and the options of its caller

    WhoIs gets a pointer and writes NetworkNumber through it; a caller that keeps its
    options sees that in its next call. *)
From Verif Require Import ModelClient.
Import ListNotations.
Open Scope Z_scope.

(** whois.go:25-27: the options after a call *)
Definition whois_leaves (wh : whoIsOpts) : whoIsOpts :=
  if wh_global wh then mkWho (wh_low wh) (wh_high wh) (wh_global wh) GlobalBroadcast else wh.
(** what the caller writes into its options before a call (fields left alone are None) *)
Record edit := mkEdit { e_low : option Z; e_high : option Z; e_global : option bool; e_net : option Z }.
Definition written {A} (o : option A) (x : A) : A := match o with Some y => y | None => x end.
Definition edited (e : edit) (wh : whoIsOpts) : whoIsOpts :=
  mkWho (written (e_low e) (wh_low wh)) (written (e_high e) (wh_high wh)) (written (e_global e) (wh_global wh)) (written (e_net e) (wh_net wh)).
(** whois.go:20-60: calls with one set of options; what each sends and subscribes to *)
Fixpoint whois_calls (bcast : address) (me : option address) (wh : whoIsOpts) (es : list edit) : list (res (option datagram) * (Z * Z)) :=
  match es with
  | [] => []
  | e :: es' => let wh := edited e wh in (whois_frame bcast me wh, whois_sub wh) :: whois_calls bcast me (whois_leaves wh) es'
  end.
