(** * What the properties of the discovery calls observe *)
From Verif Require Import ModelScan SpecRun SpecClient SpecUtsm.
From Verif Require ModelUtsm.
Import ListNotations.
Open Scope Z_scope.

(** everything the datagrams received in a run announce *)
Definition received_in (l : list yaction) : list (Z * pub) :=
  flat_map (fun a => match a with YArrive _ src b known => published (fun _ => known) [(src, b)] | _ => [] end) l.

(** the numbers of the publications since subscriber [s] registered, in the order in
    which they were made; from the log alone *)
Fixpoint made_since (s : nat) (log : list ModelUtsm.uevent) : list Z :=
  match log with
  | [] => []
  | ModelUtsm.USub _ s' _ _ :: t => if Nat.eqb s' s then [] else made_since s t
  | ModelUtsm.UPub _ _ v :: t => made_since s t ++ [v]
  | _ :: t => made_since s t
  end.
(** the log when the call of subscriber [s] returned *)
Fixpoint before_return (s : nat) (log : list ModelUtsm.uevent) : list ModelUtsm.uevent :=
  match log with
  | [] => []
  | ModelUtsm.URet _ s' _ :: t => if Nat.eqb s' s then t else before_return s t
  | _ :: t => before_return s t
  end.
(** the publications with these numbers *)
Definition numbered (w : syst) (vs : list Z) : list (Z * pub) :=
  flat_map (fun v => match nth_error (y_pubs w) (Z.to_nat v) with Some x => [x] | None => [] end) vs.
(** everything published while the call [f] was registered, in this order *)
Definition announced_during (w : syst) (f : sdone) : list (Z * pub) :=
  numbered w (made_since (sd_sub f) (before_return (sd_sub f) (ModelUtsm.u_log (y_u w)))).
(** the range a call asks for *)
Definition asked_range (q : scan) : Z * Z :=
  match q with QWho wh => (requested_low wh, requested_high wh) | QRouters | QNumbers => (1, 65534) end.
Definition in_asked (q : scan) (m : Z * pub) : bool := in_range (fst (asked_range q)) (snd (asked_range q)) m.
(** [r] is what a call gives when these were announced while it was subscribed:
    WhoIs one entry per device, from its first announcement; the other two what all
    the messages of their kind carry *)
Definition scan_gives (q : scan) (heard : list (Z * pub)) (r : sresult) : Prop :=
  match q with
  | QWho wh => exists ds, r = XDevices ds /\ NoDup (map f_deviceid ds) /\
      forall x, In x ds <-> exists pre i post, heard = pre ++ (oid_inst (i_id i), PubIAm i) :: post
        /\ requested_low wh <= oid_inst (i_id i) <= requested_high wh /\ x = found_of i
        /\ forall k j, In (k, PubIAm j) pre -> oid_inst (i_id j) <> oid_inst (i_id i)
  | QRouters => r = XAddrs (flat_map (fun m => match m with (k, PubNets l) => if (1 <=? k) && (k <=? 65534) then l else [] | _ => [] end) heard)
  | QNumbers => r = XAddrs (flat_map (fun m => match m with
        | (k, PubNpdu n) => if (1 <=? k) && (k <=? 65534) then match n_src n with Some a => [a] | None => [] end else []
        | _ => [] end) heard)
  end.

(** goroutine [i] is in a call, waiting for answers *)
Definition scanning (w : syst) (i : nat) : Prop := exists q t e, nth_error (y_ph w) i = Some (YSub q t e).
(** steps of calls and handlers in progress: nothing new begins and no datagram arrives *)
Definition on_the_way (a : yaction) : bool :=
  match a with YTx _ _ | YOffer _ | YCheck _ | YTake _ | YIn _ => true | YSpawn | YCall _ _ | YArrive _ _ _ _ => false end.
(** no publication can be served any more *)
Definition stuck (w : syst) : Prop := exists k j s, doomed (y_u w) k j s.
(** the handler that is publishing will not crash the process right afterwards *)
Definition holder_safe (w : syst) : Prop := forall k p,
  ModelUtsm.u_lock (y_u w) = Some k -> nth_error (y_ph w) k <> Some (YHandle [p] true).

(** An announcement arrives only when no other one is being handled and the channels
    of all subscribers are empty, and no datagram makes two announcements. *)
Definition quiet (w : syst) : Prop :=
  (forall i ps b, nth_error (y_ph w) i <> Some (YHandle ps b)) /\ all_room (y_u w).
Fixpoint calm (bcast : address) (me : option address) (w : syst) (l : list yaction) : Prop :=
  match l with
  | [] => True
  | a :: t =>
      match a with
      | YArrive _ src b known =>
          published (fun _ => known) [(src, b)] = [] \/
          (exists p, published (fun _ => known) [(src, b)] = [p]) /\ quiet w
      | _ => True
      end /\
      match yexec bcast me w a with Some w' => calm bcast me w' t | None => True end
  end.

(** The goroutine that transmits for a call is not interrupted between Send and the
    channel. *)
Fixpoint prompt (l : list yaction) : Prop :=
  match l with
  | [] => True
  | YTx i _ :: (YOffer j :: t) => i = j /\ prompt t
  | YTx _ _ :: _ => False
  | _ :: t => prompt t
  end.
