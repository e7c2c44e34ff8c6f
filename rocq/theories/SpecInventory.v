(** The object list of a device that changes while it is read. *)
From Verif Require Import ModelNet SpecWire SpecLayers SpecServices SpecObs SpecClient SpecDevice SpecSnapshot.

(** what a device has at a moment *)
Record inventory := mkInventory { iv_ids : list object_id; iv_name : object_id -> list Z; iv_desc : object_id -> list Z }.
(** objects of standard types (others: C49), each listed once *)
Definition inventory_ok (v : inventory) : Prop :=
  NoDup (iv_ids v) /\ zlen (iv_ids v) < whole
  /\ Forall (fun o => valid_oid o /\ standard o = true /\ readable (VString (iv_name v o)) /\ readable (VString (iv_desc v o))) (iv_ids v).
(** the device [dev] in state [s] has the inventory [v]: length and elements of the
    object list (12.11), names and descriptions; nothing else is to be had *)
Definition holds {S} (M : machine S) (dev : object_id) (s : S) (v : inventory) : Prop :=
  m_read M s dev 76 0 = inl [SVal (VUint (zlen (iv_ids v)))]
  /\ (forall i, 1 <= i < whole -> if i <=? zlen (iv_ids v) then m_read M s dev 76 i = inl [SVal (VOid (entry (iv_ids v) i))] else exists x, m_read M s dev 76 i = inr x)
  /\ (forall o, In o (iv_ids v) -> m_read M s o 77 whole = inl [SVal (VString (iv_name v o))] /\ m_read M s o 28 whole = inl [SVal (VString (iv_desc v o))])
  /\ (forall o, ~ In o (iv_ids v) -> exists x, m_read M s o 77 whole = inr x).
(** one ReadProperty call; there is only one attempt *)
Definition hosts_read {S} (M : machine S) (ip : list Z) (port : Z) (hdr : list Z) (s : S) (o : object_id) (p idx : Z) (x : fate) (e : env) (id : Z) : Prop :=
  ev_id e = Some id /\ is_byte id
  /\ let g := mkDgram ip port (frame_with hdr (spec_read_request id o p idx)) in
     match x with
     | NotSent => at_sent (ev_att e 0 g) = false
     | RequestLost | AnswerLost => at_sent (ev_att e 0 g) = true /\ at_reply (ev_att e 0 g) = None
     | Arrived => at_sent (ev_att e 0 g) = true
         /\ exists known src fn n reply, frame_func fn /\ npdu_ok n /\ n_netmsg n = false
         /\ at_reply (ev_att e 0 g) = Some reply
         /\ In (EDeliver id reply) (fst (handleMsg known src (spec_bvlc fn (spec_npdu n ++ snd (react M id (ORead o p idx) s)))))
     end.
(** what the first of two attempts brings that brings something *)
Definition told {A} (f : nat -> fate) (h : nat -> option A) : option A :=
  let try j := match f j with Arrived => h j | _ => None end in
  match try O with Some a => Some a | None => try 1%nat end.
(** elements [fst c] to [snd c] of the list *)
Definition part (c : Z * Z) (v : inventory) : option (list object_id) :=
  if snd c <=? zlen (iv_ids v) then Some (map (entry (iv_ids v)) (indices c)) else None.
Fixpoint collect (seen : nat -> nat -> inventory) (f : nat -> nat -> fate) (k : nat) (cs : list (Z * Z)) : option (list object_id) :=
  match cs with
  | [] => Some []
  | c :: cs' => match told (f k) (fun j => part c (seen k j)), collect seen f (S k) cs' with Some a, Some b => Some (a ++ b) | _, _ => None end
  end.
Definition distinct (l : list object_id) : list object_id :=
  fold_left (fun acc o => if existsb (oid_eqb o) acc then acc else acc ++ [o]) l [].
(** The calls of a scan, numbered from 0: the length of the list, its parts, then names
    and descriptions of five objects each.  Attempt [j] of call [k] finds the device in
    state [st k j]; [f k j] becomes of it. *)
Definition hosts_scan {S} (M : machine S) (ip : list Z) (port : Z) (hdr : list Z) (fuel : nat) (dev : object_id)
  (order : list (object_id * object) -> list (object_id * object)) (cs : list (Z * Z))
  (st : nat -> nat -> S) (seen : nat -> nat -> inventory) (f : nat -> nat -> fate) (envs : nat -> env) (inv : nat -> Z) : Prop :=
  hosts_read M ip port hdr (st O O) dev 76 0 (f O O) (envs O) (inv O)
  /\ (forall j c, nth_error cs j = Some c -> let k := (1 + j)%nat in
        hosts_reads M ip port hdr fuel (st k) (list_request dev c) (f k) (envs k) (inv k))
  /\ (forall l, collect seen f 1 cs = Some l -> let l' := distinct l in
        forall j g, nth_error (fives (length l') (map fst (order (bare l')))) j = Some g -> let k := (1 + length cs + j)%nat in
        hosts_reads M ip port hdr fuel (st k) (names_request g) (f k) (envs k) (inv k)).

(** What a scan may return: every entry was found on the list at a moment and has the
    name and description it had at a later moment, and every place of the list, as long
    as it was at first, was looked at. *)
Definition moment (f : nat -> nat -> fate) (k j : nat) : Prop := (j < 2)%nat /\ f k j = Arrived.
Definition faithful (seen : nat -> nat -> inventory) (f : nat -> nat -> fate) (m : list (object_id * object)) : Prop :=
  NoDup (map fst m) /\ f O O = Arrived
  /\ (forall o x, In (o, x) m -> exists k j i k' j', (1 <= k < k')%nat /\ moment f k j /\ moment f k' j'
        /\ 1 <= i <= zlen (iv_ids (seen O O)) /\ i <= zlen (iv_ids (seen k j)) /\ o = entry (iv_ids (seen k j)) i
        /\ In o (iv_ids (seen k' j')) /\ x = mkObj (iv_name (seen k' j') o) (iv_desc (seen k' j') o) o [])
  /\ (forall i, 1 <= i <= zlen (iv_ids (seen O O)) -> exists k j, (1 <= k)%nat /\ moment f k j
        /\ i <= zlen (iv_ids (seen k j)) /\ In (entry (iv_ids (seen k j)) i) (map fst m)).
(** Why it may fail: a call was not answered, or each time it was the list had become
    shorter or an object found before was gone. *)
Definition excused (seen : nat -> nat -> inventory) (f : nat -> nat -> fate) : Prop :=
  f O O <> Arrived
  \/ exists k, (1 <= k)%nat /\ forall j, moment f k j ->
       zlen (iv_ids (seen k j)) < zlen (iv_ids (seen O O))
       \/ exists o k' j', (1 <= k' < k)%nat /\ moment f k' j' /\ In o (iv_ids (seen k' j')) /\ ~ In o (iv_ids (seen k j)).

(** a device that is its inventory and cannot be written *)
Definition catalogue (dev : object_id) : machine inventory := mkMachine
  (fun v o p idx =>
    if oid_eqb o dev && (p =? 76) then
      if idx =? 0 then inl [SVal (VUint (zlen (iv_ids v)))]
      else if (1 <=? idx) && (idx <=? zlen (iv_ids v)) then inl [SVal (VOid (entry (iv_ids v) idx))] else inr (2, 42)
    else if existsb (oid_eqb o) (iv_ids v) && (idx =? whole) then
      if p =? 77 then inl [SVal (VString (iv_name v o))] else if p =? 28 then inl [SVal (VString (iv_desc v o))] else inr (2, 32)
    else inr (1, 31))
  (fun _ _ _ _ _ _ => inr (2, 40)).
