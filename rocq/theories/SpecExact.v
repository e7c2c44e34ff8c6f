(** The layout of received frames of arbitrary content (6.2.2), for the exact
    statements. *)
From Verif Require Import ModelClient SpecWire SpecClient.

Definition opt_octets (here : bool) (n : nat) (w : list Z) : Prop := if here then length w = n else w = [].
(** network number, length octet and address *)
Definition addr_octets (here : bool) (w : list Z) : Prop :=
  if here then exists h l len adr, w = h :: l :: len :: adr /\ zlen adr = len else w = [].
(** message type and the octets the library takes to belong to the header: the vendor
    of types above 0x80, the network number of type 19, two networks of type 1 *)
Definition netmsg_octets (here : bool) (w : list Z) : Prop :=
  if here then exists mt r, w = mt :: r
    /\ length r = ((if (128 <? mt)%Z then 2 else 0) + (if (mt =? 19)%Z then 2 else 0) + (if (mt =? 1)%Z then 4 else 0))%nat
  else w = [].
Definition header_octets (w : list Z) : Prop := exists v m dest src hop net,
  w = v :: m :: dest ++ src ++ hop ++ net
  /\ addr_octets (Z.testbit m 5) dest /\ addr_octets (Z.testbit m 3) src
  /\ opt_octets (Z.testbit m 5) 1 hop /\ netmsg_octets (Z.testbit m 7) net.
(** a datagram with BVLC function [f] that carries [apdu] *)
Definition carries (b : list Z) (f : Z) (apdu : list Z) : Prop := exists t l1 l2 hdr,
  b = t :: f :: l1 :: l2 :: hdr ++ apdu /\ header_octets hdr /\ (f = 4 \/ f = 10 \/ f = 11).
(** 20.2.1, strictly: tag number, length/value and what follows; [None] if octets are
    missing *)
Definition header_rest (num v : Z) (r : list Z) : option (Z * Z * list Z) :=
  if v =? 5 then
    match r with
    | [] => None
    | x :: r' =>
      if x =? 254 then match r' with h :: l :: r2 => Some (num, h * 256 + l, r2) | _ => None end
      else if x =? 255 then match r' with a :: b :: c :: d :: r2 => Some (num, ((a * 256 + b) * 256 + c) * 256 + d, r2) | _ => None end
      else Some (num, x, r')
    end
  else Some (num, if 6 <=? v then 0 else v, r).
Definition header (bs : list Z) : option (Z * Z * list Z) :=
  match bs with
  | [] => None
  | b :: r =>
    if b / 16 =? 15 then match r with [] => None | n :: r' => header_rest n (b mod 8) r' end
    else header_rest (b / 16) (b mod 8) r
  end.
(** What becomes of the octets when the library takes one value from them: it crashes,
    it finds octets missing, or there is a content and a rest; a value of a type or
    character set it does not know is refused but passed over. *)
Inductive taking := Crash | Missing | Taken (refused : bool) (num : Z) (content rest : list Z).
Definition take (num n : Z) (r : list Z) : taking :=
  if n <=? zlen r then Taken false num (firstn (Z.to_nat n) r) (skipn (Z.to_nat n) r) else Missing.
Definition take_value (bs : list Z) : taking :=
  match header bs with
  | None => if fst (fst (hdr bs)) =? 7 then Crash else Missing
  | Some (num, len, r) =>
    if (num =? 0) || (num =? 1) then take num 0 r
    else if (num =? 2) || (num =? 3) || (num =? 9) then take num (if (1 <=? len) && (len <=? 4) then len else 0) r
    else if (num =? 4) || (num =? 12) then take num 4 r
    else if num =? 5 then take num 8 r
    else if (num =? 6) || (num =? 8) then take num len r
    else if num =? 7 then
      match r with
      | [] => if len =? 0 then Crash else Missing
      | c :: r' => if (c =? 0) || (c =? 4) then if len =? 0 then Crash else take num (len - 1) r' else Taken true num [] r'
      end
    else if (num =? 10) || (num =? 11) then
      match r with
      | [] => if len =? 0 then Taken false num [] [] else Missing
      | _ => if (num =? 11) && (1 <=? len) && (len <=? 3) then Crash
             else Taken false num (firstn (Z.to_nat len) r) (skipn (Z.to_nat len) r)
      end
    else Taken true num [] r
  end.
(** [n] values in a row *)
Fixpoint crash_within (n : nat) (bs : list Z) : Prop :=
  match n with
  | O => False
  | S n' => match take_value bs with Crash => True | Missing => False | Taken _ _ _ r => crash_within n' r end
  end.
Fixpoint all_taken (n : nat) (bs : list Z) : option (list (Z * list Z)) :=
  match n with
  | O => Some []
  | S n' => match take_value bs with
            | Taken _ num c r => match all_taken n' r with Some l => Some ((num, c) :: l) | None => None end
            | _ => None
            end
  end.
(** big endian *)
Definition big (l : list Z) : Z := fold_left (fun a b => a * 256 + b) l 0.
(** the four values of an I-Am; one of another type than expected counts as zero *)
Definition as_oid (x : Z * list Z) : object_id :=
  if fst x =? 12 then mkOid (big (snd x) / 4194304) (big (snd x) mod 4194304) else mkOid 0 0.
Definition as_number (x : Z * list Z) : Z := if (fst x =? 2) || (fst x =? 9) then big (snd x) else 0.
Definition iam_octets (raw : list Z) : option (object_id * Z * Z * Z) :=
  match take_value raw with
  | Taken false num c r =>
    match all_taken 3 r with
    | Some [x; y; z] => Some (as_oid (num, c), as_number x, as_number y, as_number z)
    | _ => None
    end
  | _ => None
  end.
(** an I-Am whose first value cannot be read without a crash, or one of the others
    when the first was read *)
Definition iam_crash (apdu : list Z) : Prop := exists t raw, apdu = t :: 0 :: raw /\ t / 16 = 1
  /\ match take_value raw with Crash => True | Taken false _ _ r => crash_within 3 r | _ => False end.
(** Class and code of an Error PDU, after its first octet: invoke id, service, then either
    an opening tag, two unsigned values of which the first is cut to 16 bits and a closing
    tag, or anything else, of which the library takes the octets where two tags begin. *)
Definition unsigned_in (bs : list Z) : option (Z * list Z) :=
  match header bs with
  | Some (_, len, r) =>
      let n := if (1 <=? len) && (len <=? 4) then len else 0 in
      if n <=? zlen r then Some (big (firstn (Z.to_nat n) r), skipn (Z.to_nat n) r) else None
  | None => None
  end.
Definition error_octets (r : list Z) : option (Z * Z) :=
  let w := skipn 2 r in
  let m := nth 0 w 0 in
  let w1 := skipn (if m / 16 =? 15 then 2 else 1) w in
  if 6 <=? m mod 8 then
    match unsigned_in w1 with
    | Some (c, w2) => match unsigned_in w2 with
                      | Some (k, x :: _) => if x mod 8 =? 7 then Some (c mod 65536, k) else None
                      | _ => None
                      end
    | None => None
    end
  else Some (nth 0 w1 0, nth 0 (snd (hdr w1)) 0).
(** an APDU the handler does not stop at: an unconfirmed request other than I-Am; an
    I-Am that could be read; an acknowledgement or a request for a pending
    transaction; an error that could be read *)
Definition handled (known : Z -> bool) (apdu : list Z) : Prop :=
  match apdu with
  | [] => False
  | t :: r =>
    (t / 16 = 1 /\ exists svc raw, r = svc :: raw
       /\ (svc = 0 -> iam_octets raw <> None))
    \/ ((t / 16 = 2 \/ t / 16 = 3) /\ exists inv svc w, r = inv :: svc :: w /\ known inv = true)
    \/ (t / 16 = 0 /\ exists sz inv w, r = sz :: inv :: w /\ known inv = true
        /\ (if Z.testbit t 3 then 3 <= zlen w else 1 <= zlen w))
    \/ (t / 16 = 5 /\ error_octets r <> None)
  end.
(** what an APDU hands to the transaction [id] *)
Definition hands_over (apdu : list Z) (id : Z) (p : payload) : Prop :=
  match apdu with
  | [] => False
  | t :: r =>
    ((t / 16 = 2 \/ t / 16 = 3) /\ p = PBytes apdu /\ exists svc w, r = id :: svc :: w)
    \/ (t / 16 = 0 /\ p = PBytes apdu /\ exists sz w, r = sz :: id :: w /\ (if Z.testbit t 3 then 3 <= zlen w else 1 <= zlen w))
    \/ (t / 16 = 5 /\ exists c k, error_octets r = Some (c, k) /\ id = nth 0 r 0 /\ p = PErr c k)
  end.
(** the I-Ams published, the address aside *)
Definition announces (apdu : list Z) (id : object_id) (maxapdu seg vendor : Z) : Prop :=
  exists t raw, apdu = t :: 0 :: raw /\ t / 16 = 1 /\ iam_octets raw = Some (id, maxapdu, seg, vendor).
