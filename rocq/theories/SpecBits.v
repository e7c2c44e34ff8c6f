(** * Using bit strings *)
From Verif Require Import ModelBits SpecWire.
Open Scope Z_scope.

(** a program that sets bits, one after another *)
Fixpoint set_bits (ops : list (Z * bool)) (b : bitstring) : res bitstring :=
  match ops with
  | [] => ROk b
  | (n, v) :: r => rbind (bs_SetBit n v b) (set_bits r)
  end.
(** what was last written to a bit *)
Definition last_set (ops : list (Z * bool)) (n : Z) : bool :=
  fold_left (fun old x => if fst x =? n then snd x else old) ops false.
(** the number of bits up to the last that was written *)
Definition longest (ops : list (Z * bool)) : Z :=
  fold_left (fun m x => Z.max m (fst x + 1)) ops 0.
(** the first [n] bits that [f] tells *)
Definition bits_upto (n : Z) (f : Z -> bool) : list bool := map (fun i => f (Z.of_nat i)) (seq 0 (Z.to_nat n)).
(** the octets [f] tells, bit 0 the least significant *)
Definition octet_of (f : Z -> bool) (i v : Z) : Prop := forall k, 0 <= k < 8 -> Z.testbit v k = f (8 * i + k).
