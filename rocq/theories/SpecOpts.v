(** * C145: the options a caller has written *)
From Verif Require Import ModelClient ModelOpts.
Import ListNotations.
Open Scope Z_scope.

(** the options after the first [n] edits, as the caller wrote them *)
Definition wrote (wh : whoIsOpts) (es : list edit) (n : nat) : whoIsOpts := fold_left (fun w e => edited e w) (firstn n es) wh.
(** before the [n]th call (from 0) there was a call with GlobalBroadcast, and no
    NetworkNumber has been written since *)
Definition stale (wh : whoIsOpts) (es : list edit) (n : nat) : Prop :=
  exists k, (k < n)%nat /\ wh_global (wrote wh es (S k)) = true /\ forall j e, (k < j <= n)%nat -> nth_error es j = Some e -> e_net e = None.
