(** Several properties at once: a device as in SpecDevice asked with
    ReadPropertyMultiple (15.7) or told with WritePropertyMultiple (15.10). *)
From Verif Require Import ModelNet SpecWire SpecLayers SpecServices SpecObs SpecClient SpecDevice.

(** * Reading *)
(** the result for one property: its values or an access error *)
Definition item {S} (M : machine S) (s : S) (o : object_id) (x : Z * Z) : result + failure :=
  match m_read M s o (fst x) (snd x) with
  | inl vs => inl (mkResult (fst x) (snd x) vs)
  | inr (c, k) => inr (mkFailure (fst x) (snd x) c k)
  end.
Definition spec_item (x : result + failure) : list Z := match x with inl r => spec_result r | inr f => spec_failure f end.
Definition spec_items (x : object_id * list (result + failure)) : list Z :=
  spec_ctx_oid 0 (fst x) ++ spec_open 1 ++ flat_map spec_item (snd x) ++ spec_close 1.
Definition items {S} (M : machine S) (s : S) (xs : list (object_id * list (Z * Z))) : list (object_id * list (result + failure)) :=
  map (fun x => (fst x, map (item M s (fst x)) (snd x))) xs.
Definition spec_multi_answer {S} (M : machine S) (s : S) (id : Z) (xs : list (object_id * list (Z * Z))) : list Z :=
  spec_complex_ack id 14 ++ flat_map spec_items (items M s xs).
(** Attempt [k] finds the device in state [st k]: between the attempts anything may
    happen to it. *)
Definition hosts_reads {S} (M : machine S) (ip : list Z) (port : Z) (hdr : list Z) (fuel : nat) (st : nat -> S)
  (xs : list (object_id * list (Z * Z))) (f : nat -> fate) (e : env) (id : Z) : Prop :=
  ev_id e = Some id /\ is_byte id
  /\ let g := mkDgram ip port (frame_with hdr (spec_readmulti_request id xs)) in
     forall k, match f k with
     | NotSent => at_sent (ev_att e k g) = false
     | RequestLost | AnswerLost => at_sent (ev_att e k g) = true /\ at_reply (ev_att e k g) = None
     | Arrived => at_sent (ev_att e k g) = true /\ (length (spec_multi_answer M (st k) id xs) <= fuel)%nat
         /\ exists known src fn n reply, frame_func fn /\ npdu_ok n /\ n_netmsg n = false
         /\ at_reply (ev_att e k g) = Some reply
         /\ In (EDeliver id reply) (fst (handleMsg known src (spec_bvlc fn (spec_npdu n ++ spec_multi_answer M (st k) id xs))))
     end.
(** all properties in state [s], as the API shows them; nothing if one cannot be read *)
Fixpoint each {A B} (h : A -> option B) (l : list A) : option (list B) :=
  match l with
  | [] => Some []
  | a :: l' => match h a, each h l' with Some b, Some bs => Some (b :: bs) | _, _ => None end
  end.
Definition snapshot {S} (M : machine S) (s : S) (xs : list (object_id * list (Z * Z))) : option (list object) :=
  each (fun x => option_map (mkObj [] [] (fst x))
         (each (fun y => match m_read M s (fst x) (fst y) (snd y) with
                         | inl vs => Some (mkProp (fst y) (snd y) (one_or_list (map shown vs)) 0)
                         | inr _ => None
                         end) (snd x))) xs.
(** the snapshot attempt [k] brings home *)
Definition brings {S} (M : machine S) (st : nat -> S) (xs : list (object_id * list (Z * Z))) (f : nat -> fate) (k : nat) : option (list object) :=
  match f k with Arrived => snapshot M (st k) xs | _ => None end.
Definition reads_ok (xs : list (object_id * list (Z * Z))) : Prop :=
  Forall (fun x => valid_oid (fst x) /\ snd x <> [] /\ Forall (fun p => in_u32 (fst p) /\ in_u32 (snd p)) (snd x)) xs.

(** * Writing *)
Definition flat_writes (xs : list (object_id * list writing)) : list (object_id * writing) :=
  flat_map (fun x => map (pair (fst x)) (snd x)) xs.
(** the device carries the writes out one after the other and stops at the first it refuses *)
Fixpoint carry_out {S} (M : machine S) (s : S) (l : list (object_id * writing)) : S * option (object_id * writing * (Z * Z)) :=
  match l with
  | [] => (s, None)
  | (o, w) :: l' => match m_write M s o (wt_prop w) (wt_index w) (wt_value w) (wt_prio w) with
                    | inl s' => carry_out M s' l'
                    | inr x => (s, Some (o, w, x))
                    end
  end.
(** WritePropertyMultiple-Error: the error in brackets, then the first write refused *)
Definition spec_multi_error (id : Z) (o : object_id) (w : writing) (c k : Z) : list Z :=
  [80; id; 16] ++ spec_open 0 ++ spec_app (VEnum c) ++ spec_app (VEnum k) ++ spec_close 0
  ++ spec_open 1 ++ spec_ctx_oid 0 o ++ spec_ctx_unsigned 1 (wt_prop w) ++ spec_index 2 (wt_index w) ++ spec_close 1.
Definition react_writes {S} (M : machine S) (id : Z) (xs : list (object_id * list writing)) (s : S) : S * list Z :=
  match carry_out M s (flat_writes xs) with
  | (s', None) => (s', spec_simple_ack id 16)
  | (s', Some (o, w, (c, k))) => (s', spec_multi_error id o w c k)
  end.
Fixpoint told_after {S} (M : machine S) (id : Z) (xs : list (object_id * list writing)) (f : nat -> fate) (n : nat) (s : S) : S :=
  match n with
  | O => s
  | S n' => let s' := told_after M id xs f n' s in
            match f n' with AnswerLost | Arrived => fst (react_writes M id xs s') | _ => s' end
  end.
Definition hosts_writes {S} (M : machine S) (ip : list Z) (port : Z) (s : S) (xs : list (object_id * list writing)) (f : nat -> fate) (e : env) (id : Z) : Prop :=
  ev_id e = Some id /\ is_byte id
  /\ let g := mkDgram ip port (local_frame (spec_writemulti_request id xs)) in
     forall k, match f k with
     | NotSent => at_sent (ev_att e k g) = false
     | RequestLost | AnswerLost => at_sent (ev_att e k g) = true /\ at_reply (ev_att e k g) = None
     | Arrived => at_sent (ev_att e k g) = true
         /\ exists known src fn n reply, frame_func fn /\ npdu_ok n /\ n_netmsg n = false
         /\ at_reply (ev_att e k g) = Some reply
         /\ In (EDeliver id reply) (fst (handleMsg known src (spec_bvlc fn (spec_npdu n ++ snd (react_writes M id xs (told_after M id xs f k s))))))
     end.
Definition writes_ok (xs : list (object_id * list writing)) : Prop :=
  Forall (fun x => valid_oid (fst x) /\ Forall writing_ok (snd x) /\ Forall (plain_writing (fst x)) (snd x)) xs.
(** What ought to come of it: the list is carried out by every attempt that reaches the
    device, at most two; the call succeeds if an attempt was carried out to the end and
    its answer arrived; if the first arrives so there is no second. *)
Definition complete {S} (M : machine S) (s : S) (xs : list (object_id * list writing)) (x : fate) : bool :=
  match x, snd (carry_out M s (flat_writes xs)) with Arrived, None => true | _, _ => false end.
Definition moved {S} (M : machine S) (s : S) (xs : list (object_id * list writing)) (x : fate) : S :=
  match x with AnswerLost | Arrived => fst (carry_out M s (flat_writes xs)) | _ => s end.
Definition settles_writes {S} (M : machine S) (s : S) (xs : list (object_id * list writing)) (f : nat -> fate) : bool * S :=
  if complete M s xs (f O) then (true, moved M s xs (f O))
  else let s' := moved M s xs (f O) in (complete M s' xs (f 1%nat), moved M s' xs (f 1%nat)).
(** the places the writes name, and the value the last write to a place leaves there *)
Definition place (y : object_id * writing) : object_id * Z * Z := (fst y, wt_prop (snd y), wt_index (snd y)).
