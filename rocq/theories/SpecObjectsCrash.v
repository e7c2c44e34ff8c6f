(** * C48: answers to the request for names and descriptions *)
From Verif Require Import ModelClient.
Import ListNotations.
Open Scope Z_scope.

(** the results of an object begin with two texts *)
Definition named (r : object) : Prop :=
  exists p q ps n d, o_props r = p :: q :: ps /\ pr_data p = VString n /\ pr_data q = VString d.
(** there is no result, or only one and it is a text *)
Definition cut_short (r : object) : Prop :=
  o_props r = [] \/ exists p n, o_props r = [p] /\ pr_data p = VString n.
(** the first object not answered with two texts is answered with too few results, or
    there are answers for more than [asked] objects *)
Definition falls_short (asked : nat) (rs : list object) : Prop :=
  exists before r after, rs = before ++ r :: after /\ Forall named before /\ (cut_short r \/ named r /\ (asked <= length before)%nat).
