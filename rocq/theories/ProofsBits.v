(** Bit strings: wire positions and get/set laws. *)
From Coq Require Import Lia ZifyBool ZifyNat.
From Verif Require Import ModelBits SpecWire ProofsWire ProofsTag ProofsApp.
Ltac Zify.zify_post_hook ::= Z.div_mod_to_equations.

(** ** packing *)
Lemma pack8_spec : forall n l, 0 <= fst (pack8 n l) < 2 ^ Z.of_nat n
  /\ snd (pack8 n l) = skipn n l
  /\ (forall k, (k < n)%nat -> Z.testbit (fst (pack8 n l)) (Z.of_nat (n - 1 - k)) = nth k l false).
Proof.
  induction n as [|n IH]; intros l.
  - simpl. split; [lia|]. split; [reflexivity|]. intros; lia.
  - cbn [pack8]. destruct l as [|b l].
    + cbn [fst snd]. split; [assert (0 < 2 ^ Z.of_nat (S n)) by (apply Z.pow_pos_nonneg; lia); lia|].
      split; [reflexivity|]. intros k Hk. rewrite Z.bits_0. destruct k; reflexivity.
    + specialize (IH l). destruct (pack8 n l) as [v r]. cbn [fst snd] in *.
      destruct IH as (Hv & Hr & Hb).
      assert (Hz : 0 <= bit_z b <= 1) by (destruct b; simpl; lia).
      assert (Hp : 0 < 2 ^ Z.of_nat n) by (apply Z.pow_pos_nonneg; lia).
      split; [rewrite Nat2Z.inj_succ, Z.pow_succ_r by lia; nia|].
      split; [exact Hr|]. intros k Hk. rewrite <- lor_disjoint by lia. rewrite Z.lor_spec.
      destruct k as [|k].
      * replace (S n - 1 - 0)%nat with n by lia. cbn [nth].
        rewrite <- (Z.add_0_r (Z.of_nat n)) at 2. rewrite Z.mul_pow2_bits_add by lia.
        rewrite Z.bit0_odd. replace (Z.testbit v (Z.of_nat n)) with false; [destruct b; reflexivity|].
        symmetry. apply Z.testbit_false; [lia|]. rewrite Z.div_small by lia. reflexivity.
      * replace (S n - 1 - S k)%nat with (n - 1 - k)%nat by lia. cbn [nth].
        rewrite Hb by lia. rewrite Z.mul_pow2_bits_low by lia. reflexivity.
Qed.
Lemma pack_length : forall n l, length (pack n l) = n.
Proof.
  induction n; intros l; [reflexivity|]. cbn [pack]. destruct (pack8 8 l). cbn [length]. rewrite IHn. reflexivity.
Qed.
Lemma skipn_add : forall {A} b a (l : list A), skipn a (skipn b l) = skipn (b + a) l.
Proof.
  induction b; intros a l; [reflexivity|]. destruct l; [destruct a; reflexivity|]. cbn [skipn Nat.add]. apply IHb.
Qed.
Lemma pack_nth : forall n l i, (i < n)%nat -> nth i (pack n l) 0 = fst (pack8 8 (skipn (8 * i) l)).
Proof.
  induction n; intros l i Hi; [lia|]. cbn [pack].
  pose proof (pack8_spec 8 l) as (_ & Hs & _). destruct (pack8 8 l) as [v r] eqn:E. cbn [snd] in Hs.
  destruct i as [|i].
  - simpl skipn. rewrite E. reflexivity.
  - cbn [nth]. rewrite IHn by lia. subst r. rewrite skipn_add. do 3 f_equal. lia.
Qed.
Lemma pack_bytes : forall n l, is_bytes (pack n l).
Proof.
  induction n; intros l; [constructor|]. cbn [pack].
  pose proof (pack8_spec 8 l) as (Hv & _). destruct (pack8 8 l) as [v r]. constructor; [exact Hv|apply IHn].
Qed.

(** ** reversing a byte *)
Lemma rev_bits : forall c k, is_byte c -> 0 <= k < 8 ->
  Z.testbit (byteReverseBits c) k = Z.testbit c (7 - k).
Proof.
  intros c k Hc Hk.
  pose proof (sweep2 256 8 (fun c k => Bool.eqb (Z.testbit (byteReverseBits c) k) (Z.testbit c (7 - k)))
    eq_refl c k Hc Hk) as E.
  apply eqb_prop in E. exact E.
Qed.
Lemma rev_byte : forall c, is_byte c -> is_byte (byteReverseBits c).
Proof.
  intros c Hc.
  pose proof (byte_sweep (fun c => (0 <=? byteReverseBits c) && (byteReverseBits c <? 256)) eq_refl c Hc) as E.
  cbv beta in E. unfold is_byte. lia.
Qed.
Lemma land_bit : forall v k, 0 <= k < 8 ->
  negb (Z.land v (u8 (Z.shiftl 1 k)) =? 0) = Z.testbit v k.
Proof.
  intros v k Hk. rewrite Z.shiftl_1_l. unfold u8. rewrite Z.mod_small.
  2:{ assert (2 ^ k <= 2 ^ 7) by (apply Z.pow_le_mono_r; lia). assert (0 < 2 ^ k) by (apply Z.pow_pos_nonneg; lia).
      simpl in *; lia. }
  assert (Hb : Z.land v (2 ^ k) = if Z.testbit v k then 2 ^ k else 0).
  { apply Z.bits_inj'. intros m Hm. rewrite Z.land_spec, Z.pow2_bits_eqb by lia.
    destruct (Z.eqb_spec k m).
    - subst m. rewrite andb_true_r. destruct (Z.testbit v k).
      + rewrite Z.pow2_bits_true by lia. reflexivity.
      + rewrite Z.bits_0. reflexivity.
    - rewrite andb_false_r. destruct (Z.testbit v k).
      + rewrite Z.pow2_bits_false by lia. reflexivity.
      + rewrite Z.bits_0. reflexivity. }
  rewrite Hb. destruct (Z.testbit v k).
  - replace (2 ^ k =? 0) with false; [reflexivity|]. symmetry. apply Z.eqb_neq. apply Z.pow_nonzero; lia.
  - reflexivity.
Qed.

(** ** the decoding loop *)
Lemma upd_app : forall {A} (l1 : list A) x y l2, upd (length l1) y (l1 ++ x :: l2) = l1 ++ y :: l2.
Proof. induction l1; intros; simpl; [reflexivity|]. rewrite IHl1. reflexivity. Qed.
Lemma bits_loop_ok : forall n pre h dn (used : Z),
  (length dn = S n)%nat -> (length pre + n <= 15)%nat -> length h = length pre ->
  bits_loop n (zlen pre) (0 :: h ++ tl dn) (mkBits used (pre ++ repeat 0 n))
  = ROk (mkBits used (pre ++ map byteReverseBits (tl dn))).
Proof.
  induction n as [|n IH]; intros pre h dn used Hl Hle Hh.
  - destruct dn as [|d0 [|d1 dn]]; try discriminate. simpl. reflexivity.
  - destruct dn as [|d0 [|d1 dn]]; try discriminate. cbn [tl map repeat bits_loop].
    unfold bs_SetByte. cbn [bs_value bs_used].
    assert (E1 : zlen pre <? maxBitStringBytes = true) by (unfold zlen, maxBitStringBytes; lia).
    rewrite E1.
    assert (E2 : zlen pre <? zlen (pre ++ 0 :: repeat 0 n) = true).
    { unfold zlen. rewrite app_length. cbn [length]. lia. }
    rewrite E2. cbn [rbind].
    assert (E3 : znth (zlen pre + 1) (0 :: h ++ d1 :: dn) = d1).
    { unfold znth, zlen. replace (Z.to_nat (Z.of_nat (length pre) + 1)) with (S (length h)) by lia.
      cbn [nth]. rewrite app_nth2 by lia. rewrite Nat.sub_diag. reflexivity. }
    rewrite E3. replace (Z.to_nat (zlen pre)) with (length pre) by (unfold zlen; lia).
    rewrite upd_app.
    replace (zlen pre + 1) with (zlen (pre ++ [byteReverseBits d1])) by (unfold zlen; rewrite app_length; cbn [length]; lia).
    replace (pre ++ byteReverseBits d1 :: repeat 0 n) with ((pre ++ [byteReverseBits d1]) ++ repeat 0 n)
      by (rewrite <- app_assoc; reflexivity).
    replace (0 :: h ++ d1 :: dn) with (0 :: (h ++ [d1]) ++ tl (d1 :: dn)) by (rewrite <- app_assoc; reflexivity).
    rewrite IH.
    + cbn [tl]. rewrite <- app_assoc. reflexivity.
    + cbn [length] in *. lia.
    + rewrite app_length. cbn [length] in *. lia.
    + rewrite !app_length. cbn [length]. lia.
Qed.
Lemma bits_loop_h0 : forall n i h0 h0' t b, 0 <= i ->
  bits_loop n i (h0 :: t) b = bits_loop n i (h0' :: t) b.
Proof.
  induction n; intros i h0 h0' t b Hi; [reflexivity|]. cbn [bits_loop].
  assert (E : znth (i + 1) (h0 :: t) = znth (i + 1) (h0' :: t)).
  { unfold znth. replace (Z.to_nat (i + 1)) with (S (Z.to_nat i)) by lia. reflexivity. }
  rewrite E. destruct (bs_SetByte i (byteReverseBits (znth (i + 1) (h0' :: t))) b); [|reflexivity].
  cbn [rbind]. apply IHn. lia.
Qed.

(** the value a conforming bit string of at most 120 bits is decoded to *)
Definition bits_of (l : list bool) : bitstring :=
  mkBits (zlen l) (map byteReverseBits (pack (Z.to_nat (bit_octets l)) l)).

Lemma dec_bits : forall l rest p, zlen l <= 120 ->
  dec_AppData (mkDec (spec_bits l ++ rest) p None)
  = Val (VBits (Some (bits_of l)), None) (mkDec rest (Some (last (spec_bits l) 0)) None).
Proof.
  intros l rest p Hl. unfold spec_bits.
  assert (H0 : 0 <= zlen l) by (unfold zlen; lia).
  assert (Hb : 0 <= bit_octets l <= 15) by (unfold bit_octets; lia).
  rewrite tag_app by lia. unfold AppDataOfTag; unfold_tags; cbn [Z.eqb Pos.eqb].
  unfold dec_bitString. replace (bit_octets l + 1 <=? 0) with false by lia.
  set (data := (bit_octets l * 8 - zlen l) :: pack (Z.to_nat (bit_octets l)) l).
  assert (Hd : length data = Z.to_nat (bit_octets l + 1)) by (unfold data; cbn [length]; rewrite pack_length; lia).
  rewrite decode_n_ok by lia. cbv zeta. replace (bit_octets l + 1 - 1) with (bit_octets l) by lia.
  unfold u8. rewrite (Z.mod_small (bit_octets l)) by lia.
  replace (bit_octets l <=? maxBitStringBytes) with true by (unfold maxBitStringBytes; lia).
  unfold newBitString. replace (maxBitStringBytes <? bit_octets l) with false by (unfold maxBitStringBytes; lia).
  unfold zeros. unfold data at 1. rewrite (bits_loop_h0 _ 0 _ 0) by lia.
  pose proof (bits_loop_ok (Z.to_nat (bit_octets l)) [] [] data 0) as HL.
  unfold data in HL at 1 2 3. cbn [tl app] in HL. change (zlen (@nil Z)) with 0 in HL.
  rewrite HL; [|unfold data in Hd; rewrite Hd; lia|simpl; lia|reflexivity].
  cbn [obind derr]. rewrite last_app2 by (unfold data; congruence).
  do 3 f_equal. unfold bits_of, bs_SetBitsUsed. cbn [bs_value]. f_equal. f_equal. f_equal.
  change (znth 0 data) with (bit_octets l * 8 - zlen l).
  assert (Hu : 0 <= bit_octets l * 8 - zlen l < 8) by (unfold bit_octets; lia).
  change 7 with (Z.ones 3). rewrite Z.land_ones by lia. rewrite (Z.mod_small _ (2 ^ 3)) by (simpl; lia).
  unfold u8. lia.
Qed.

(** ** reading it back bit by bit *)
Lemma znth_map : forall f l i, 0 <= i < zlen l -> znth i (map f l) = f (znth i l).
Proof.
  intros f l i Hi. unfold znth, zlen in *. rewrite nth_indep with (d' := f 0) by (rewrite map_length; lia).
  apply map_nth.
Qed.
Lemma nth_skipn : forall {A} k i (l : list A) d, nth i (skipn k l) d = nth (k + i) l d.
Proof.
  induction k; intros i l d; [reflexivity|]. destruct l as [|x l].
  - simpl. destruct i; reflexivity.
  - simpl. apply IHk.
Qed.
Lemma bits_of_Bit : forall l j, zlen l <= 120 -> 0 <= j < zlen l ->
  bs_Bit j (bits_of l) = ROk (nth (Z.to_nat j) l false).
Proof.
  intros l j Hl Hj. unfold bs_Bit, bits_of. cbn [bs_value].
  replace (j <? maxBitStringBytes * 8) with true by (unfold maxBitStringBytes; lia).
  assert (Hz : zlen (pack (Z.to_nat (bit_octets l)) l) = bit_octets l).
  { unfold zlen at 1. rewrite pack_length. unfold bit_octets, zlen; lia. }
  assert (Hz2 : zlen (map byteReverseBits (pack (Z.to_nat (bit_octets l)) l)) = bit_octets l).
  { rewrite <- Hz at 2. unfold zlen. rewrite map_length. reflexivity. }
  rewrite Hz2. assert (Hj8 : 0 <= j / 8 < bit_octets l) by (unfold bit_octets; lia).
  replace (j / 8 <? bit_octets l) with true by lia. f_equal.
  rewrite znth_map by lia.
  rewrite land_bit by lia.
  assert (Hp : znth (j / 8) (pack (Z.to_nat (bit_octets l)) l)
              = fst (pack8 8 (skipn (8 * Z.to_nat (j / 8)) l))).
  { unfold znth. apply pack_nth. lia. }
  pose proof (pack8_spec 8 (skipn (8 * Z.to_nat (j / 8)) l)) as (Hb & _ & Hn).
  rewrite Hp. rewrite rev_bits; [|exact Hb|lia].
  specialize (Hn (Z.to_nat (j - j / 8 * 8))). 
  replace (Z.of_nat (8 - 1 - Z.to_nat (j - j / 8 * 8))) with (7 - (j - j / 8 * 8)) in Hn by lia.
  rewrite Hn by lia. rewrite nth_skipn. f_equal. lia.
Qed.
Lemma bs_get_ok : forall k i l b, (forall j, i <= j < i + Z.of_nat k -> bs_Bit j b = ROk (nth (Z.to_nat j) l false)) ->
  0 <= i -> (Z.to_nat i + k <= length l)%nat ->
  bs_get k i b = ROk (firstn k (skipn (Z.to_nat i) l)).
Proof.
  induction k; intros i l b H Hi Hl; [reflexivity|]. cbn [bs_get].
  rewrite H by lia. cbn [rbind]. rewrite (IHk (i + 1) l b); [|intros; apply H; lia|lia|lia].
  cbn [rbind]. f_equal.
  replace (Z.to_nat (i + 1)) with (S (Z.to_nat i)) by lia.
  assert (Hlt : (Z.to_nat i < length l)%nat) by lia. clear - Hlt.
  revert l Hlt. generalize (Z.to_nat i) as m. induction m; intros l Hlt.
  - destruct l; [simpl in Hlt; lia|]. reflexivity.
  - destruct l; [simpl in Hlt; lia|]. cbn [skipn nth]. apply IHm. simpl in Hlt; lia.
Qed.
Lemma bits_of_get : forall l, zlen l <= 120 -> bs_GetValue (bits_of l) = ROk l.
Proof.
  intros l Hl. unfold bs_GetValue. change (bs_used (bits_of l)) with (zlen l).
  rewrite (bs_get_ok _ 0 l).
  - simpl skipn. replace (Z.to_nat (zlen l)) with (length l) by (unfold zlen; lia). rewrite firstn_all. reflexivity.
  - intros j Hj. apply bits_of_Bit; [assumption|]. unfold zlen in *; lia.
  - lia.
  - simpl. unfold zlen. lia.
Qed.

(** ** get/set laws *)
Lemma nth_upd : forall {A} n m (v d : A) l, (n < length l)%nat ->
  nth m (upd n v l) d = if (m =? n)%nat then v else nth m l d.
Proof.
  induction n; intros m v d l Hl; destruct l; simpl in Hl; try lia.
  - destruct m; reflexivity.
  - cbn [upd]. destruct m; [reflexivity|]. cbn [nth]. rewrite IHn by lia. reflexivity.
Qed.
Lemma upd_length : forall {A} n (v : A) l, length (upd n v l) = length l.
Proof. induction n; intros v l; destruct l; simpl; auto. Qed.

Lemma setbit_laws : forall n v b, 0 <= n < zlen (bs_value b) * 8 -> zlen (bs_value b) <= 15 -> 0 <= bs_used b <= 120 ->
  exists b', bs_SetBit n v b = ROk b'
  /\ bs_Bit n b' = ROk v
  /\ (forall m, 0 <= m < 256 -> m <> n -> bs_Bit m b' = bs_Bit m b)
  /\ bs_used b' = Z.max (bs_used b) (n + 1)
  /\ zlen (bs_value b') = zlen (bs_value b).
Proof.
  intros n v b Hn Hl Hu. unfold bs_SetBit.
  replace (n / 8 <? maxBitStringBytes) with true by (unfold maxBitStringBytes; lia).
  replace (n / 8 <? zlen (bs_value b)) with true by lia.
  eexists. split; [reflexivity|].
  set (nb := if v then _ else _).
  assert (Hlen : zlen (upd (Z.to_nat (n / 8)) nb (bs_value b)) = zlen (bs_value b))
    by (unfold zlen; rewrite upd_length; reflexivity).
  assert (Hk : 0 <= n - n / 8 * 8 < 8) by lia.
  assert (Hnb : forall k, 0 <= k < 8 -> Z.testbit nb k
     = if k =? n - n / 8 * 8 then v else Z.testbit (znth (n / 8) (bs_value b)) k).
  { intros k Hk8. subst nb. set (o := znth (n / 8) (bs_value b)). set (s := n - n / 8 * 8) in *.
    assert (Hm : u8 (Z.shiftl 1 s) = 2 ^ s).
    { rewrite Z.shiftl_1_l. unfold u8. apply Z.mod_small.
      assert (2 ^ s <= 2 ^ 7) by (apply Z.pow_le_mono_r; lia). assert (0 < 2 ^ s) by (apply Z.pow_pos_nonneg; lia).
      simpl in *; lia. }
    rewrite Hm. destruct v.
    - rewrite Z.lor_spec, Z.pow2_bits_eqb by lia. rewrite (Z.eqb_sym s k).
      destruct (k =? s); [apply orb_true_r|apply orb_false_r].
    - rewrite Z.land_spec.
      assert (Hc : Z.testbit (255 - 2 ^ s) k = negb (k =? s)).
      { pose proof (sweep2 8 8 (fun s k => Bool.eqb (Z.testbit (255 - 2 ^ s) k) (negb (k =? s))) eq_refl s k Hk Hk8) as E.
        apply eqb_prop in E. exact E. }
      rewrite Hc. destruct (k =? s); [apply andb_false_r|apply andb_true_r]. }
  assert (Hat : forall m, 0 <= m < 120 -> znth (m / 8) (upd (Z.to_nat (n / 8)) nb (bs_value b))
     = if m / 8 =? n / 8 then nb else znth (m / 8) (bs_value b)).
  { intros m Hm. unfold znth. rewrite nth_upd by (unfold zlen in *; lia).
    destruct (Nat.eqb_spec (Z.to_nat (m / 8)) (Z.to_nat (n / 8))); destruct (Z.eqb_spec (m / 8) (n / 8)); try reflexivity; lia. }
  repeat split.
  - unfold bs_Bit. cbn [bs_value]. replace (n <? maxBitStringBytes * 8) with true by (unfold maxBitStringBytes; lia).
    rewrite Hlen. replace (n / 8 <? zlen (bs_value b)) with true by lia.
    rewrite Hat by lia. rewrite Z.eqb_refl. rewrite land_bit by lia. rewrite Hnb by lia. rewrite Z.eqb_refl. reflexivity.
  - intros m Hm Hne. unfold bs_Bit. cbn [bs_value]. rewrite Hlen.
    destruct (m <? maxBitStringBytes * 8) eqn:E; [|reflexivity].
    destruct (m / 8 <? zlen (bs_value b)) eqn:E2; [|reflexivity].
    unfold maxBitStringBytes in E. rewrite Hat by lia.
    destruct (Z.eqb_spec (m / 8) (n / 8)) as [Eq|Ne]; [|reflexivity].
    rewrite !land_bit by lia. rewrite Hnb by lia.
    replace (m - m / 8 * 8 =? n - n / 8 * 8) with false by lia. rewrite <- Eq. reflexivity.
  - cbn [bs_used]. unfold u8. rewrite Z.mod_small by lia.
    destruct (bs_used b <? n + 1) eqn:E; lia.
  - exact Hlen.
Qed.
