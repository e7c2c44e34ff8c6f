(** Proofs about the use of bit strings: C152. *)
From Coq Require Import Lia ZifyBool ZifyNat.
From Verif Require Import ModelBits SpecWire SpecBits ProofsWire ProofsTag ProofsApp ProofsBits.
Ltac Zify.zify_post_hook ::= Z.div_mod_to_equations.

(** ** what GetValue does *)
Lemma bit_out : forall n b, 0 <= n -> bs_Bit n b = RPanic <-> n < 120 /\ zlen (bs_value b) * 8 <= n.
Proof.
  intros n b Hn. unfold bs_Bit, maxBitStringBytes. destruct (n <? 15 * 8) eqn:E; [|split; [discriminate|lia]].
  destruct (n / 8 <? zlen (bs_value b)) eqn:L; [split; [discriminate|lia]|]. split; [intros _; lia|reflexivity].
Qed.
Lemma get_out : forall k i b, 0 <= i -> bs_get k i b = RPanic <-> exists j, i <= j < i + Z.of_nat k /\ bs_Bit j b = RPanic.
Proof.
  induction k as [|k IH]; intros i b Hi; cbn [bs_get].
  - split; [discriminate|intros (j & H & _); lia].
  - destruct (bs_Bit i b) as [v|] eqn:E; cbn [rbind]; [|split; [intros _; exists i; split; [lia|exact E]|reflexivity]].
    specialize (IH (i + 1) b ltac:(lia)). destruct (bs_get k (i + 1) b) as [l|] eqn:G; cbn [rbind].
    + split; [discriminate|]. intros (j & H & J). destruct (Z.eq_dec j i) as [->|N]; [rewrite E in J; discriminate J|].
      assert (X : ROk l = RPanic) by (apply IH; exists j; split; [lia|exact J]). discriminate X.
    + split; [|reflexivity]. intros _. destruct (proj1 IH eq_refl) as (j & H & J). exists j. split; [lia|exact J].
Qed.
Lemma look : forall b, 0 <= bs_used b -> bs_GetValue b = RPanic <-> zlen (bs_value b) * 8 < bs_used b /\ zlen (bs_value b) < 15.
Proof.
  intros b U. unfold bs_GetValue. rewrite get_out by lia. assert (0 <= zlen (bs_value b)) by (unfold zlen; lia). split.
  - intros (j & H1 & H2). apply bit_out in H2; lia.
  - intros [H1 H2]. exists (zlen (bs_value b) * 8). split; [lia|]. apply bit_out; lia.
Qed.
(** ** what the decoder returns *)
Lemma loop_size : forall n i data b b', bits_loop n i data b = ROk b' -> zlen (bs_value b') = zlen (bs_value b) /\ bs_used b' = bs_used b.
Proof.
  induction n as [|n IH]; intros i data b b' H; cbn [bits_loop] in H; [injection H as <-; split; reflexivity|].
  unfold bs_SetByte in H. destruct (i <? maxBitStringBytes); [|apply (IH _ _ _ _ H)].
  destruct (i <? zlen (bs_value b)); [|discriminate H]. cbn [rbind] in H. destruct (IH _ _ _ _ H) as [H1 H2]. cbn [bs_value bs_used] in *.
  rewrite H1, H2. unfold zlen. rewrite upd_length. split; reflexivity.
Qed.
Lemma zeros_len : forall n, 0 <= n -> zlen (zeros n) = n.
Proof. intros n H. unfold zlen, zeros. rewrite repeat_length. lia. Qed.
Lemma dec_bits_out : forall len d b d', dec_bitString len d = Val (Some b) d' -> 0 <= bs_used b /\
  (bs_GetValue b = RPanic <-> len = 1 /\ derr d = None /\ exists c r, dbuf d = c :: r /\ c mod 8 <> 0).
Proof.
  intros len d b d' H. unfold dec_bitString in H. destruct (len <=? 0) eqn:L; [discriminate H|].
  destruct (decode_n (Z.to_nat len) d) as [r d1] eqn:E.
  set (data := match r with Some bs => bs | None => zeros len end) in *.
  set (n := if maxBitStringBytes <? len - 1 then maxBitStringBytes else len - 1).
  assert (N : 0 <= n) by (subst n; unfold maxBitStringBytes; destruct (15 <? len - 1) eqn:Q; lia).
  assert (V : bs_value (newBitString (len - 1)) = zeros n) by reflexivity.
  assert (Z7 : Z.land (znth 0 data) 7 = znth 0 data mod 8) by (change 7 with (Z.ones 3); rewrite Z.land_ones by lia; reflexivity).
  assert (D0 : len = 1 -> znth 0 data mod 8 <> 0 <-> derr d = None /\ exists c r, dbuf d = c :: r /\ c mod 8 <> 0).
  { intros ->. subst data. unfold decode_n in E. destruct (derr d) as [x|] eqn:DE.
    - injection E as <- _. split; [intros Q; exfalso; apply Q; reflexivity|intros [Q _]; discriminate Q].
    - change (Z.to_nat 1) with 1%nat in E. destruct (dbuf d) as [|c w]; cbn in E; injection E as <- _.
      + split; [intros Q; exfalso; apply Q; reflexivity|intros (_ & c & r & Q & _); discriminate Q].
      + split; [intros Q; split; [reflexivity|exists c, w; split; [reflexivity|exact Q]]|intros (_ & c' & r & Q & X); injection Q as -> ->; exact X]. }
  destruct (u8 (len - 1) <=? maxBitStringBytes) eqn:B.
  - destruct (bits_loop (Z.to_nat (u8 (len - 1))) 0 data (newBitString (len - 1))) as [b1|] eqn:G; [|discriminate H]. injection H as <- _.
    destruct (loop_size _ _ _ _ _ G) as [G1 _]. rewrite V, zeros_len in G1 by exact N. unfold bs_SetBitsUsed. rewrite Z7.
    assert (U : 0 <= bs_used (mkBits (u8 (u8 (u8 (len - 1) * 8) - znth 0 data mod 8)) (bs_value b1))) by (cbn [bs_used]; unfold u8; lia).
    split; [exact U|]. rewrite look by exact U. cbn [bs_used bs_value]. rewrite G1. subst n. unfold maxBitStringBytes, u8 in *.
    destruct (15 <? len - 1) eqn:Q.
    + split; [lia|]. intros [-> _]. discriminate Q.
    + destruct (Z.eq_dec len 1) as [->|N1].
      * specialize (D0 eq_refl). change (1 - 1) with 0 in *. change ((0 mod 256 * 8) mod 256) with 0. split.
        -- intros [H _]. split; [reflexivity|]. apply D0. intros X. rewrite X in H. discriminate H.
        -- intros [_ H]. apply D0 in H. split; lia.
      * split; [|lia]. intros [H _]. rewrite (Z.mod_small (len - 1)) in H by lia. rewrite (Z.mod_small ((len - 1) * 8)) in H by lia.
        rewrite Z.mod_small in H by lia. lia.
  - injection H as <- _. assert (U : 0 <= bs_used (newBitString (len - 1))) by (cbn; lia). split; [exact U|]. rewrite look by exact U.
    change (bs_used (newBitString (len - 1))) with 0. unfold zlen. split; [lia|]. intros [-> _]. discriminate B.
Qed.
(** ** octets *)
Lemma byte_bits : forall i b, 0 <= i < zlen (bs_value b) -> zlen (bs_value b) <= 15 ->
  exists v, bs_Byte i b = ROk v /\ forall k, 0 <= k < 8 -> bs_Bit (8 * i + k) b = ROk (Z.testbit v k).
Proof.
  intros i b Hi Hl. exists (znth i (bs_value b)). unfold bs_Byte, maxBitStringBytes. replace (i <? 15) with true by lia. replace (i <? zlen (bs_value b)) with true by lia.
  split; [reflexivity|]. intros k Hk. unfold bs_Bit, maxBitStringBytes. replace (8 * i + k <? 15 * 8) with true by lia. replace ((8 * i + k) / 8) with i by lia.
  replace (i <? zlen (bs_value b)) with true by lia. replace (8 * i + k - i * 8) with k by lia. rewrite land_bit by exact Hk. reflexivity.
Qed.
Lemma byte_out : forall i b, 0 <= i -> zlen (bs_value b) <= i -> bs_Byte i b = if i <? 15 then RPanic else ROk 0.
Proof. intros i b Hi H. unfold bs_Byte, maxBitStringBytes. destruct (i <? 15); [|reflexivity]. replace (i <? zlen (bs_value b)) with false by lia. reflexivity. Qed.
Lemma bits_upto_nth : forall f n i, 0 <= i < n -> nth (Z.to_nat i) (bits_upto n f) false = f i.
Proof.
  intros f n i H. unfold bits_upto. rewrite (nth_indep _ false (f (Z.of_nat 0))) by (rewrite map_length, seq_length; lia).
  rewrite (map_nth (fun i => f (Z.of_nat i)) (seq 0 (Z.to_nat n)) 0%nat), seq_nth by lia. f_equal. lia.
Qed.
Lemma get_upto : forall b f, 0 <= bs_used b -> (forall j, 0 <= j < bs_used b -> bs_Bit j b = ROk (f j)) -> bs_GetValue b = ROk (bits_upto (bs_used b) f).
Proof.
  intros b f U H. assert (L : length (bits_upto (bs_used b) f) = Z.to_nat (bs_used b)) by (unfold bits_upto; rewrite map_length, seq_length; reflexivity).
  unfold bs_GetValue. rewrite (bs_get_ok _ 0 (bits_upto (bs_used b) f)).
  - change (skipn (Z.to_nat 0) (bits_upto (bs_used b) f)) with (bits_upto (bs_used b) f). rewrite <- L. rewrite firstn_all. reflexivity.
  - intros j Hj. rewrite H by lia. rewrite bits_upto_nth by lia. reflexivity.
  - lia.
  - rewrite L. cbn. lia.
Qed.
(** ** bit strings that are made *)
Lemma sets : forall ops b f, zlen (bs_value b) <= 15 -> 0 <= bs_used b <= zlen (bs_value b) * 8 -> Forall (fun x => 0 <= fst x < zlen (bs_value b) * 8) ops ->
  (forall j, 0 <= j < zlen (bs_value b) * 8 -> bs_Bit j b = ROk (f j)) ->
  exists b', set_bits ops b = ROk b' /\ zlen (bs_value b') = zlen (bs_value b)
  /\ bs_used b' = fold_left (fun m x => Z.max m (fst x + 1)) ops (bs_used b) /\ 0 <= bs_used b' <= zlen (bs_value b) * 8
  /\ (forall j, 0 <= j < zlen (bs_value b) * 8 -> bs_Bit j b' = ROk (fold_left (fun old x => if fst x =? j then snd x else old) ops (f j))).
Proof.
  induction ops as [|[n v] ops IH]; intros b f Hl Hu Ho Hf.
  - exists b. split; [reflexivity|]. split; [reflexivity|]. split; [reflexivity|]. split; [exact Hu|exact Hf].
  - inversion_clear Ho as [|? ? Hn Ho']. cbn [fst] in Hn. destruct (setbit_laws n v b Hn Hl ltac:(lia)) as (b1 & E & E1 & E2 & E3 & E4).
    cbn [set_bits]. rewrite E. cbn [rbind fold_left fst snd]. rewrite <- E4, <- E3. apply IH; rewrite ?E4; try assumption; [rewrite E3; lia|].
    intros j Hj. destruct (n =? j) eqn:Q; [apply Z.eqb_eq in Q; subst j; exact E1|]. rewrite E2 by lia. apply Hf. exact Hj.
Qed.
Lemma new_bit : forall n j, 0 <= n <= 15 -> 0 <= j < n * 8 -> bs_Bit j (newBitString n) = ROk false.
Proof.
  intros n j Hn Hj. unfold bs_Bit, newBitString, maxBitStringBytes. cbn [bs_value]. replace (15 <? n) with false by lia. rewrite zeros_len by lia.
  replace (j <? 15 * 8) with true by lia. replace (j / 8 <? n) with true by lia. unfold znth, zeros. rewrite nth_repeat. reflexivity.
Qed.
Lemma made : forall size ops, 0 <= size <= 15 -> Forall (fun x => 0 <= fst x < size * 8) ops ->
  exists b, set_bits ops (newBitString size) = ROk b /\ bs_GetValue b = ROk (bits_upto (longest ops) (last_set ops))
  /\ bs_BytesUsed b = (longest ops + 7) / 8 /\ bs_BitsCapacity b = size * 8
  /\ (forall n, 0 <= n < size * 8 -> bs_Bit n b = ROk (last_set ops n))
  /\ forall i, 0 <= i < size -> exists v, bs_Byte i b = ROk v /\ octet_of (last_set ops) i v.
Proof.
  intros size ops Hs Ho. assert (Z : zlen (bs_value (newBitString size)) = size).
  { unfold newBitString, maxBitStringBytes. cbn [bs_value]. replace (15 <? size) with false by lia. apply zeros_len. lia. }
  destruct (sets ops (newBitString size) (fun _ => false)) as (b & E & E1 & E2 & E3 & E4); rewrite ?Z; try assumption; [lia|cbn; lia|intros j Hj; apply new_bit; lia|].
  rewrite Z in *. change (bs_used b = longest ops) in E2. change (forall j, 0 <= j < size * 8 -> bs_Bit j b = ROk (last_set ops j)) in E4.
  exists b. split; [exact E|]. split; [|split; [|split; [|split; [exact E4|]]]].
  - rewrite <- E2. apply get_upto; [lia|]. intros j Hj. apply E4. lia.
  - unfold bs_BytesUsed. rewrite E2 in *. destruct (0 <? longest ops) eqn:Q; lia.
  - unfold bs_BitsCapacity, u8. rewrite E1. lia.
  - intros i Hi. destruct (byte_bits i b ltac:(lia) ltac:(lia)) as (v & V & B). exists v. split; [exact V|]. intros k Hk.
    specialize (B k Hk). rewrite E4 in B by lia. injection B as B. symmetry. exact B.
Qed.
Lemma set_out : forall n v b, 0 <= n -> zlen (bs_value b) * 8 <= n -> bs_SetBit n v b = if n <? 120 then RPanic else ROk b.
Proof.
  intros n v b Hn H. unfold bs_SetBit, maxBitStringBytes. replace (n / 8 <? 15) with (n <? 120) by lia. destruct (n <? 120); [|reflexivity].
  replace (n / 8 <? zlen (bs_value b)) with false by lia. reflexivity.
Qed.
(** ** bit strings that are received *)
Lemma bits_of_any : forall l j, zlen l <= 120 -> 0 <= j < bit_octets l * 8 ->
  bs_Bit j (bits_of l) = ROk (nth (Z.to_nat j) l false).
Proof.
  intros l j Hl Hj. unfold bs_Bit, bits_of. cbn [bs_value].
  replace (j <? maxBitStringBytes * 8) with true by (unfold maxBitStringBytes, bit_octets in *; lia).
  assert (Hz : zlen (pack (Z.to_nat (bit_octets l)) l) = bit_octets l).
  { unfold zlen at 1. rewrite pack_length. unfold bit_octets, zlen; lia. }
  assert (Hz2 : zlen (map byteReverseBits (pack (Z.to_nat (bit_octets l)) l)) = bit_octets l).
  { rewrite <- Hz at 2. unfold zlen. rewrite map_length. reflexivity. }
  rewrite Hz2. assert (Hj8 : 0 <= j / 8 < bit_octets l) by (unfold bit_octets in *; lia).
  replace (j / 8 <? bit_octets l) with true by lia. f_equal.
  rewrite znth_map by lia.
  rewrite land_bit by lia.
  assert (Hp : znth (j / 8) (pack (Z.to_nat (bit_octets l)) l)
              = fst (pack8 8 (skipn (8 * Z.to_nat (j / 8)) l))).
  { unfold znth. apply pack_nth. lia. }
  pose proof (pack8_spec 8 (skipn (8 * Z.to_nat (j / 8)) l)) as (Hb & _ & Hn).
  rewrite Hp. rewrite rev_bits; [|exact Hb|lia].
  specialize (Hn (Z.to_nat (j - j / 8 * 8))). 
  replace (Z.of_nat (8 - 1 - Z.to_nat (j - j / 8 * 8))) with (7 - (j - j / 8 * 8)) in Hn by lia.
  rewrite Hn by lia. rewrite nth_skipn. f_equal. lia.
Qed.
Lemma received : forall l p rest, zlen l <= 120 -> exists b d, dec_AppData (mkDec (spec_bits l ++ rest) p None) = Val (VBits (Some b), None) d /\ dbuf d = rest
  /\ bs_BytesUsed b = bit_octets l /\ bs_BitsCapacity b = bit_octets l * 8
  /\ forall i, 0 <= i < 256 -> if i <? bit_octets l then exists v, bs_Byte i b = ROk v /\ octet_of (fun n => nth (Z.to_nat n) l false) i v else bs_Byte i b = if i <? 15 then RPanic else ROk 0.
Proof.
  intros l p rest H. exists (bits_of l). eexists. split; [apply dec_bits; exact H|]. split; [reflexivity|].
  assert (Z : zlen (bs_value (bits_of l)) = bit_octets l).
  { unfold bits_of. cbn [bs_value]. unfold zlen. rewrite map_length, pack_length. unfold bit_octets, zlen. lia. }
  assert (L : 0 <= zlen l) by (unfold zlen; lia). split; [|split].
  - unfold bs_BytesUsed. change (bs_used (bits_of l)) with (zlen l). unfold bit_octets. destruct (0 <? zlen l) eqn:Q; lia.
  - unfold bs_BitsCapacity, u8. rewrite Z. unfold bit_octets. lia.
  - intros i Hi. destruct (i <? bit_octets l) eqn:Q; [|apply byte_out; lia].
    destruct (byte_bits i (bits_of l) ltac:(lia) ltac:(unfold bit_octets in *; lia)) as (v & V & B). exists v. split; [exact V|]. intros k Hk. specialize (B k Hk).
    rewrite bits_of_any in B by lia. injection B as B. symmetry. exact B.
Qed.
