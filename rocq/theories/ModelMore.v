(** Date patterns: encoding/date.go:13-31. *)
From Verif Require Import Types.

(** encoding/date.go:13-15 *)
Definition IsOddMonth (month : Z) : bool := month =? 13.
(** encoding/date.go:17-19 *)
Definition IsEvenMonth (month : Z) : bool := month =? 14.
(** encoding/date.go:21-23 *)
Definition IsLastDayOfMonth (day : Z) : bool := day =? 32.
(** encoding/date.go:25-27 *)
Definition IsEvenDayOfMonth (day : Z) : bool := day =? 33.
(** encoding/date.go:29-31 *)
Definition IsOddDayOfMonth (day : Z) : bool := day =? 32.
