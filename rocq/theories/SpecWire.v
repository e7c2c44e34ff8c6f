(** Independent description of the BACnet wire format (ANSI/ASHRAE 135, clause
    20.2), by division and remainder.  It uses only the value type of Base.v. *)
From Verif Require Import Types.

Definition is_byte (b : Z) : Prop := 0 <= b < 256.
Definition is_bytes (l : list Z) : Prop := Forall is_byte l.

(** [n] octets, most significant first *)
Fixpoint octets (n : nat) (v : Z) : list Z :=
  match n with
  | O => []
  | S n' => (v / 256 ^ Z.of_nat n') mod 256 :: octets n' v
  end.

(** 20.2.4: fewest octets holding an unsigned value *)
Definition usize (v : Z) : Z := Z.log2 v / 8 + 1.
(** 20.2.5: fewest octets holding a two's complement value *)
Definition ssize (v : Z) : Z := (Z.log2 (if v <? 0 then - v - 1 else v) + 1) / 8 + 1.

(** 20.2.1: tag class, number and length.  [cls] is 0 (application) or 1 (context). *)
Definition spec_tag (cls num len : Z) : list Z :=
  [ (if num <? 15 then num else 15) * 16 + cls * 8 + (if len <? 5 then len else 5) ]
  ++ (if num <? 15 then [] else [num])
  ++ (if len <? 5 then []
      else if len <? 254 then [len]
      else if len <? 65536 then 254 :: octets 2 len
      else 255 :: octets 4 len).

(** 20.2.1.3.2: opening and closing tags *)
Definition spec_open (num : Z) : list Z :=
  if num <? 15 then [num * 16 + 14] else [15 * 16 + 14; num].
Definition spec_close (num : Z) : list Z :=
  if num <? 15 then [num * 16 + 15] else [15 * 16 + 15; num].

(** 20.2.4, 20.2.5, 20.2.14 contents octets *)
Definition spec_unsigned (v : Z) : list Z := octets (Z.to_nat (usize v)) v.
Definition spec_signed (v : Z) : list Z :=
  octets (Z.to_nat (ssize v)) (v mod 256 ^ ssize v).
Definition spec_oid (o : object_id) : list Z := octets 4 (oid_type o * 2 ^ 22 + oid_inst o).

(** 20.2.10 bit string: number of unused bits, then the bits from the most
    significant bit of the first octet on. *)
Definition bit_z (b : bool) : Z := if b then 1 else 0.
Fixpoint pack8 (n : nat) (l : list bool) : Z * list bool :=
  match n with
  | O => (0, l)
  | S n' => match l with
            | [] => (0, [])
            | b :: l' => let '(v, r) := pack8 n' l' in (bit_z b * 2 ^ Z.of_nat n' + v, r)
            end
  end.
Fixpoint pack (n : nat) (l : list bool) : list Z :=
  match n with
  | O => []
  | S n' => let '(v, r) := pack8 8 l in v :: pack n' r
  end.
Definition bit_octets (l : list bool) : Z := (zlen l + 7) / 8.
Definition spec_bits (l : list bool) : list Z :=
  spec_tag 0 8 (bit_octets l + 1)
  ++ (bit_octets l * 8 - zlen l) :: pack (Z.to_nat (bit_octets l)) l.

(** 20.2.2 - 20.2.14: an application-tagged value.  20.2.12: the year octet is
    the calendar year minus 1900, 255 meaning "unspecified". *)
Definition spec_app (v : value) : list Z :=
  match v with
  | VNull => spec_tag 0 0 0
  | VBool b => spec_tag 0 1 (if b then 1 else 0)
  | VUint n => spec_tag 0 2 (usize n) ++ spec_unsigned n
  | VInt n => spec_tag 0 3 (ssize n) ++ spec_signed n
  | VReal x => spec_tag 0 4 4 ++ octets 4 x
  | VDouble x => spec_tag 0 5 8 ++ octets 8 x
  | VOctets l => spec_tag 0 6 (zlen l) ++ l
  | VString l => spec_tag 0 7 (zlen l + 1) ++ 0 :: l
  | VEnum n => spec_tag 0 9 (usize n) ++ spec_unsigned n
  | VDate d => spec_tag 0 10 4 ++
      [ (if d_year d =? 255 then 255 else d_year d - 1900); d_month d; d_day d; d_dow d ]
  | VTime t => spec_tag 0 11 4 ++ [ t_hour t; t_min t; t_sec t; t_milli t / 10 ]
  | VOid o => spec_tag 0 12 4 ++ spec_oid o
  | _ => []
  end.

(** the values a BACnet application can put in those types *)
Definition in_u32 (n : Z) : Prop := 0 <= n < 2 ^ 32.
Definition in_i32 (n : Z) : Prop := - 2 ^ 31 <= n < 2 ^ 31.
Definition valid_oid (o : object_id) : Prop := 0 <= oid_type o <= 1023 /\ 0 <= oid_inst o <= 4194303.
Definition valid_date (d : date) : Prop :=
  (d_year d = 255 \/ 1900 <= d_year d < 1900 + 255) /\
  is_byte (d_month d) /\ is_byte (d_day d) /\ is_byte (d_dow d).
Definition valid_time (t : time) : Prop :=
  is_byte (t_hour t) /\ is_byte (t_min t) /\ is_byte (t_sec t) /\
  exists c, is_byte c /\ t_milli t = c * 10.

(** values of the dynamic types the library can write *)
Definition writable (v : value) : Prop :=
  match v with
  | VNull | VBool _ => True
  | VUint n | VEnum n => in_u32 n
  | VInt n => in_i32 n
  | VReal x => in_u32 x
  | VDouble x => 0 <= x < 2 ^ 64
  | VString l => is_bytes l /\ zlen l < 2 ^ 32 - 1
  | VOid o => valid_oid o
  | _ => False
  end.

(** what an enumerated value is reported as: its number, as an unsigned *)
Definition as_read (v : value) : value :=
  match v with VEnum n => VUint n | _ => v end.

(** 20.2.1: 135's context-tagged unsigned and object identifier *)
Definition spec_ctx_unsigned (num v : Z) : list Z := spec_tag 1 num (usize v) ++ spec_unsigned v.
Definition spec_ctx_oid (num : Z) (o : object_id) : list Z := spec_tag 1 num 4 ++ spec_oid o.

(** 20.2.1 read from arbitrary octets: tag number, length/value and what follows.
    A header cut short has no content: whatever is missing counts as zero. *)
Definition hdr_len (num : Z) (v : Z) (r : list Z) : Z * Z * list Z :=
  if v =? 5 then
    match r with
    | [] => (num, 0, [])
    | x :: r' =>
      if x =? 254 then match r' with h :: l :: r2 => (num, h * 256 + l, r2) | _ => (num, 0, []) end
      else if x =? 255 then
        match r' with
        | a :: b :: c :: d :: r2 => (num, ((a * 256 + b) * 256 + c) * 256 + d, r2)
        | _ => (num, 0, [])
        end
      else (num, x, r')
    end
  else if 6 <=? v then (num, 0, r) else (num, v, r).
Definition hdr (bs : list Z) : Z * Z * list Z :=
  match bs with
  | [] => (0, 0, [])
  | b :: r =>
    if b / 16 =? 15
    then match r with [] => hdr_len 0 (b mod 8) [] | n :: r' => hdr_len n (b mod 8) r' end
    else hdr_len (b / 16) (b mod 8) r
  end.

(** values of the conforming encodings the decoder returns faithfully *)
Definition readable (v : value) : Prop :=
  match v with
  | VNull | VBool _ => True
  | VUint n | VEnum n => in_u32 n
  | VInt n => in_i32 n /\ ~ (-8388608 <= n < -32768)
  | VReal x => in_u32 x
  | VDouble x => 0 <= x < 2 ^ 64
  | VOctets l => is_bytes l /\ zlen l < 2 ^ 32
  | VString l => is_bytes l /\ zlen l < 2 ^ 32 - 1
  | VTime t => valid_time t
  | VOid o => valid_oid o
  | _ => False
  end.

(** the inputs on which decoding a value panics *)
Definition value_panics (bs : list Z) : Prop :=
  let '(num, len, r) := hdr bs in
  (num = 7 /\ len = 0 /\ match r with [] => True | c :: _ => c = 0 \/ c = 4 end)
  \/ (num = 11 /\ 1 <= len <= 3 /\ r <> []).

(** every value of the standard's types in the ranges of the Go types *)
Definition conforming (v : value) : Prop :=
  match v with VInt n => in_i32 n | VDate d => valid_date d | _ => readable v end.
(** the proper prefixes [pre] of an encoding that are reported as errors *)
Definition trunc_reports (v : value) (pre : list Z) : Prop :=
  match v with
  | VDate _ | VTime _ => zlen pre <= 1
  | VString l => pre = [] \/ zlen (spec_tag 0 7 (zlen l + 1)) <= zlen pre
  | _ => True
  end.

(** the values whose written octets are the standard's *)
Definition written_standard (v : value) : Prop :=
  match v with
  | VDouble _ => False
  | VInt n => 0 <= n < 128 \/ 256 <= n < 32768 \/ 65536 <= n < 8388608 \/ 16777216 <= n \/ n < -8388608
  | _ => True
  end.

(** the octets the library does write; they differ from the standard's for
    doubles and for some signed integers *)
Definition app_written (v : value) : list Z :=
  match v with
  | VDouble x => spec_tag 0 5 4 ++ octets 8 x
  | VInt n => spec_tag 0 3 (usize (u32 n)) ++ spec_unsigned (u32 n)
  | _ => spec_app v
  end.
