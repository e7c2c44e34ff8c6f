(** C152: bit strings can be looked at, octet by octet and bit by bit. *)
From Verif Require Import ModelBits SpecWire SpecBits ProofsBitsUse.
Open Scope Z_scope.

(** The claim for what the program makes itself: after any sequence of SetBit within its
    size, the bits, the octets and the lengths are those that were last written. *)
Theorem c152_made_partial : forall size ops, 0 <= size <= 15 -> Forall (fun x => 0 <= fst x < size * 8) ops ->
  exists b, set_bits ops (newBitString size) = ROk b /\ bs_GetValue b = ROk (bits_upto (longest ops) (last_set ops))
  /\ bs_BytesUsed b = (longest ops + 7) / 8 /\ bs_BitsCapacity b = size * 8
  /\ (forall n, 0 <= n < size * 8 -> bs_Bit n b = ROk (last_set ops n))
  /\ forall i, 0 <= i < size -> exists v, bs_Byte i b = ROk v /\ octet_of (last_set ops) i v.
Proof. exact made. Qed.
Print Assumptions c152_made_partial.
(** Outside, SetBit, Bit and Byte crash up to bit 119 and octet 14, and do nothing above. *)
Theorem c152_outside_exact_partial : forall b,
  (forall n v, 0 <= n -> zlen (bs_value b) * 8 <= n -> bs_SetBit n v b = if n <? 120 then RPanic else ROk b) /\
  (forall n, 0 <= n -> bs_Bit n b = RPanic <-> n < 120 /\ zlen (bs_value b) * 8 <= n) /\
  (forall i, 0 <= i -> zlen (bs_value b) <= i -> bs_Byte i b = if i <? 15 then RPanic else ROk 0).
Proof. exact (fun b => conj (fun n v => set_out n v b) (conj (fun n => bit_out n b) (fun i => byte_out i b))). Qed.
Print Assumptions c152_outside_exact_partial.

(** For what a conforming device has sent, the octets are those on the wire with the bits
    in reverse order, so that bit 0 is the least significant. *)
Theorem c152_received_partial : forall l p rest, zlen l <= 120 -> exists b d, dec_AppData (mkDec (spec_bits l ++ rest) p None) = Val (VBits (Some b), None) d /\ dbuf d = rest
  /\ bs_BytesUsed b = bit_octets l /\ bs_BitsCapacity b = bit_octets l * 8
  /\ forall i, 0 <= i < 256 -> if i <? bit_octets l then exists v, bs_Byte i b = ROk v /\ octet_of (fun n => nth (Z.to_nat n) l false) i v else bs_Byte i b = if i <? 15 then RPanic else ROk 0.
Proof. exact received. Qed.
Print Assumptions c152_received_partial.
(** For what anybody has sent: GetValue crashes exactly on those of one octet, which has
    to be the number of unused bits, if that is not a multiple of 8. *)
Theorem c152_look_exact_partial : forall len d b d', dec_bitString len d = Val (Some b) d' -> 0 <= bs_used b /\
  (bs_GetValue b = RPanic <-> len = 1 /\ derr d = None /\ exists c r, dbuf d = c :: r /\ c mod 8 <> 0).
Proof. exact dec_bits_out. Qed.
Print Assumptions c152_look_exact_partial.

(** The claim does not hold for all that is received without an error: a bit string of no
    octets with 3 unused bits has 253 bits and crashes GetValue, one of no contents is nil. *)
Theorem c152_look_refuted : (exists b d, dec_AppData (newDecoder [129; 3]) = Val (VBits (Some b), None) d /\ derr d = None /\ dbuf d = [] /\ bs_used b = 253 /\ bs_GetValue b = RPanic)
  /\ exists d, dec_AppData (newDecoder [128]) = Val (VBits None, None) d /\ derr d = None.
Proof. split; [exists (mkBits 253 []); eexists; repeat split|eexists; split; reflexivity]. Qed.
Print Assumptions c152_look_refuted.

(** the hypotheses above are met *)
Example c152_ex_made : exists b, set_bits [(9, true); (2, true); (9, false); (0, true)] (newBitString 2) = ROk b
  /\ bs_GetValue b = ROk [true; false; true; false; false; false; false; false; false; false] /\ bs_Byte 0 b = ROk 5 /\ bs_BytesUsed b = 2.
Proof. eexists. repeat split. Qed.
Example c152_ex_outside : bs_SetBit 20 true (newBitString 2) = RPanic /\ bs_SetBit 130 true (newBitString 2) = ROk (newBitString 2).
Proof. split; reflexivity. Qed.
Example c152_ex_received : exists b d, dec_AppData (newDecoder (spec_bits [true; false; true] ++ [17])) = Val (VBits (Some b), None) d /\ bs_Byte 0 b = ROk 5 /\ bs_BytesUsed b = 1.
Proof. do 2 eexists. repeat split. Qed.
Example c152_ex_look : exists b d, dec_bitString 1 (mkDec [0; 9] (Some 129) None) = Val (Some b) d /\ bs_GetValue b = ROk [].
Proof. do 2 eexists. split; reflexivity. Qed.
