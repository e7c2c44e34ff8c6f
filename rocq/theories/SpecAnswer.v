(** * Answers that are not what was asked for *)
From Verif Require Import ModelClient SpecWire SpecLayers SpecServices SpecClient.
Open Scope Z_scope.

(** 20.1.5: a segment of a ComplexACK: sequence number and window size come between
    the invoke id and the service *)
Definition spec_segment (more : bool) (inv seq win svc : Z) (data : list Z) : list Z :=
  (if more then 60 else 56) :: inv :: seq :: win :: svc :: data.
(** the first octet of a SimpleACK or ComplexACK, segmented or not *)
Definition ack_head (t : Z) : Prop := 32 <= t < 64.
(** the same but for the type, the segmentation flags, the invoke id and the service *)
Inductive same_data : payload -> payload -> Prop :=
| SdSame : forall p, same_data p p
| SdHead : forall t i s t' i' s' w, ack_head t -> ack_head t' -> same_data (PBytes (t :: i :: s :: w)) (PBytes (t' :: i' :: s' :: w)).
Inductive same_reply : option payload -> option payload -> Prop :=
| SrNone : same_reply None None
| SrSome : forall p q, same_data p q -> same_reply (Some p) (Some q).
Definition alike (e e' : env) : Prop :=
  ev_id e = ev_id e' /\ forall k g, at_sent (ev_att e k g) = at_sent (ev_att e' k g) /\ same_reply (at_reply (ev_att e k g)) (at_reply (ev_att e' k g)).
(** all that comes are segments, with a window size that is not in 8..15 *)
Definition only_segments (e : env) : Prop :=
  forall k g p, at_reply (ev_att e k g) = Some p -> exists more inv seq win svc data, p = PBytes (spec_segment more inv seq win svc data) /\ 0 <= win < 128 /\ ~ 8 <= win <= 15.
(** an answer of [e] says: [s], and then the data [w] *)
Definition answered_with (e : env) (x : list Z) : Prop := exists k g, at_sent (ev_att e k g) = true /\ at_reply (ev_att e k g) = Some (PBytes x).
