(** Model of btypes/bitstring.go, the accessors.  No proofs in this file.
    (NewBitString, SetByte and SetBitsUsed are in ModelDec.v.) *)
From Verif Require Export ModelDec.

(** btypes/bitstring.go:56-64; bitNumber is a uint8, bs.Value[byteNumber] panics
    when out of range *)
Definition bs_Bit (n : Z) (b : bitstring) : res bool :=
  let byteNumber := n / 8 in
  if n <? maxBitStringBytes * 8 then
    if byteNumber <? zlen (bs_value b)
    then ROk (negb (Z.land (znth byteNumber (bs_value b)) (u8 (Z.shiftl 1 (n - byteNumber * 8))) =? 0))
    else RPanic
  else ROk false.

(** btypes/bitstring.go:22-32, the loop over the remaining [k] bits from bit i.
    i is a uint8 but never wraps because it stays below BitUsed <= 255. *)
Fixpoint bs_get (k : nat) (i : Z) (b : bitstring) : res (list bool) :=
  match k with
  | O => ROk []
  | S k' => rbind (bs_Bit i b) (fun v => rbind (bs_get k' (i + 1) b) (fun l => ROk (v :: l)))
  end.
Definition bs_GetValue (b : bitstring) : res (list bool) := bs_get (Z.to_nat (bs_used b)) 0 b.

(** btypes/bitstring.go:39-54; bitNumber + 1 is uint8 arithmetic *)
Definition bs_SetBit (n : Z) (v : bool) (b : bitstring) : res bitstring :=
  let byteNumber := n / 8 in
  if byteNumber <? maxBitStringBytes then
    let used := if bs_used b <? u8 (n + 1) then u8 (n + 1) else bs_used b in
    let bitMask := u8 (Z.shiftl 1 (n - byteNumber * 8)) in
    if byteNumber <? zlen (bs_value b) then
      let old := znth byteNumber (bs_value b) in
      ROk (mkBits used (upd (Z.to_nat byteNumber)
             (if v then Z.lor old bitMask else Z.land old (255 - bitMask)) (bs_value b)))
    else RPanic
  else ROk b.

(** btypes/bitstring.go:70-75 *)
Definition bs_BytesUsed (b : bitstring) : Z :=
  if 0 <? bs_used b then (bs_used b - 1) / 8 + 1 else 0.
(** btypes/bitstring.go:77-82 *)
Definition bs_Byte (i : Z) (b : bitstring) : res Z :=
  if i <? maxBitStringBytes
  then if i <? zlen (bs_value b) then ROk (znth i (bs_value b)) else RPanic
  else ROk 0.
(** btypes/bitstring.go:100-105 *)
Definition bs_BitsCapacity (b : bitstring) : Z := u8 (zlen (bs_value b) * 8).
