(** * The answers met by a goroutine that makes several requests *)
From Verif Require Import ModelClient ModelSystem ModelScan ModelWhole SpecSystem SpecWhole.
Import ListNotations.
Open Scope Z_scope.

(** The environments [envs] of the requests [fs]: each has the transaction id that its
    request got, and every answer in them has arrived in the steps [l] … *)
Definition arrived_in (l : list zaction) (envs : nat -> env) (fs : list finished) : Prop :=
  (forall n f, nth_error fs n = Some f -> ev_id (envs n) = fi_id f) /\
  forall n k g p, at_reply (ev_att (envs n) k g) = Some p -> exists id, answered_in l id p.
(** … with the transaction id of its own request. *)
Definition own_in (l : list zaction) (envs : nat -> env) (fs : list finished) : Prop :=
  (forall n f, nth_error fs n = Some f -> ev_id (envs n) = fi_id f) /\
  forall n k g p, at_reply (ev_att (envs n) k g) = Some p -> exists id, ev_id (envs n) = Some id /\ answered_in l id p.
(** the pool hands out new objects only *)
Definition no_reuse (l : list zaction) : Prop := forallb (fun a => negb (pool_reuse a)) l = true.
