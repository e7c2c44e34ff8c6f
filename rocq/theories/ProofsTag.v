(** Reading tags, unsigned/signed contents and object identifiers. *)
From Coq Require Import Lia ZifyBool.
From Verif Require Import ModelDec SpecWire ProofsWire.
Ltac Zify.zify_post_hook ::= Z.div_mod_to_equations.

(** case analysis on an integer comparison in the goal *)
Ltac dif :=
  match goal with
  | |- context [if ?c then _ else _] =>
      let E := fresh "E" in destruct c eqn:E; try lia
  end.

Lemma spec_tag_nonempty : forall c n l, spec_tag c n l <> [].
Proof. intros. unfold spec_tag. simpl. congruence. Qed.

(** the metadata octet of a tag *)
Definition tag_meta (cls num len : Z) : Z :=
  (if num <? 15 then num else 15) * 16 + cls * 8 + (if len <? 5 then len else 5).

Lemma tagNumber_spec : forall cls num len rest p, 0 <= cls <= 1 -> 0 <= num < 256 -> 0 <= len ->
  exists p', tagNumber (mkDec (spec_tag cls num len ++ rest) p None)
  = ((num, tag_meta cls num len),
     mkDec ((if len <? 5 then [] else if len <? 254 then [len]
             else if len <? 65536 then 254 :: octets 2 len else 255 :: octets 4 len) ++ rest) p' None)
  /\ p' = Some (last ([tag_meta cls num len] ++ (if num <? 15 then [] else [num])) 0).
Proof.
  intros cls num len rest p Hc Hn Hl. unfold spec_tag. unfold tagNumber.
  fold (tag_meta cls num len). set (m := tag_meta cls num len).
  set (ext := if len <? 5 then [] else _).
  cbn [app]. rewrite decode_u1_ok.
  assert (Hm : is_byte m).
  { unfold m, tag_meta, is_byte. destruct (num <? 15) eqn:?; destruct (len <? 5) eqn:?; lia. }
  destruct (meta_facts m Hm) as (_ & _ & _ & _ & Hx & Hs & _). rewrite Hx, Hs.
  destruct (num <? 15) eqn:En.
  - replace (240 <=? m) with false.
    2:{ unfold m, tag_meta. rewrite En. destruct (len <? 5) eqn:?; lia. }
    replace (m / 16) with num.
    2:{ unfold m, tag_meta. rewrite En. destruct (len <? 5) eqn:?; lia. }
    eexists. split; reflexivity.
  - replace (240 <=? m) with true.
    2:{ unfold m, tag_meta. rewrite En. destruct (len <? 5) eqn:?; lia. }
    cbn [app]. rewrite decode_u1_ok. eexists. split; reflexivity.
Qed.

Lemma dec_value_spec : forall cls num len rest p, 0 <= cls <= 1 -> 0 <= num < 256 -> 0 <= len < 2 ^ 32 ->
  dec_value (tag_meta cls num len)
   (mkDec ((if len <? 5 then [] else if len <? 254 then [len]
            else if len <? 65536 then 254 :: octets 2 len else 255 :: octets 4 len) ++ rest) p None)
  = (len, mkDec rest (if len <? 5 then p else
       Some (last (if len <? 254 then [len] else if len <? 65536 then 254 :: octets 2 len
                   else 255 :: octets 4 len) 0)) None).
Proof.
  intros cls num len rest p Hc Hn Hl. unfold dec_value.
  set (m := tag_meta cls num len).
  assert (Hm : is_byte m).
  { unfold m, tag_meta, is_byte. destruct (num <? 15) eqn:?; destruct (len <? 5) eqn:?; lia. }
  destruct (meta_facts m Hm) as (Hcl & Hop & _ & Hev & _ & _ & Hld). rewrite Hcl, Hop, Hev, Hld.
  assert (Hm8 : m mod 8 = if len <? 5 then len else 5).
  { unfold m, tag_meta. destruct (num <? 15) eqn:?; destruct (len <? 5) eqn:?; lia. }
  rewrite Hm8. destruct (len <? 5) eqn:E5.
  - replace (len =? 5) with false by lia. replace (6 <=? len) with false by lia.
    replace (len =? 7) with false by lia. cbn [orb app].
    reflexivity.
  - rewrite Z.eqb_refl. destruct (len <? 254) eqn:E254.
    + cbn [app]. rewrite decode_u1_ok. replace (len =? 255) with false by lia.
      replace (len =? 254) with false by lia. reflexivity.
    + destruct (len <? 65536) eqn:E65.
      * cbn [app]. rewrite decode_u1_ok. change (254 =? 255) with false. rewrite Z.eqb_refl.
        rewrite decode_u_octets; [reflexivity|congruence|simpl; lia].
      * cbn [app]. rewrite decode_u1_ok. rewrite Z.eqb_refl.
        rewrite decode_u_octets; [reflexivity|congruence|simpl; lia].
Qed.

Lemma tag_round : forall cls num len rest p, 0 <= cls <= 1 -> 0 <= num < 256 -> 0 <= len < 2 ^ 32 ->
  tagNumberAndValue (mkDec (spec_tag cls num len ++ rest) p None)
  = ((num, tag_meta cls num len, len), mkDec rest (Some (last (spec_tag cls num len) 0)) None).
Proof.
  intros. unfold tagNumberAndValue.
  destruct (tagNumber_spec cls num len rest p H H0 ltac:(lia)) as (p' & E & Hp'). rewrite E.
  rewrite dec_value_spec by assumption. do 3 f_equal. subst p'.
  unfold spec_tag. fold (tag_meta cls num len).
  destruct (len <? 5) eqn:E5.
  - rewrite app_nil_r. reflexivity.
  - rewrite app_assoc, last_app2; [reflexivity|].
    destruct (len <? 254); [|destruct (len <? 65536)]; congruence.
Qed.

(** class bit of a written tag *)
Lemma tag_meta_ctx : forall cls num len, 0 <= cls <= 1 -> 0 <= num < 256 -> 0 <= len ->
  meta_isContextSpecific (tag_meta cls num len) = (cls =? 1).
Proof.
  intros. destruct (meta_facts (tag_meta cls num len)) as (_ & _ & Hc & _).
  { unfold tag_meta, is_byte. destruct (num <? 15) eqn:?; destruct (len <? 5) eqn:?; lia. }
  rewrite Hc. unfold tag_meta. destruct (num <? 15) eqn:?; destruct (len <? 5) eqn:?; lia.
Qed.
Lemma tag_meta_notclosing : forall cls num len, 0 <= cls <= 1 -> 0 <= num < 256 -> 0 <= len ->
  meta_isClosing (tag_meta cls num len) = false /\ meta_isOpening (tag_meta cls num len) = false.
Proof.
  intros. destruct (meta_facts (tag_meta cls num len)) as (Hc & Ho & _).
  { unfold tag_meta, is_byte. destruct (num <? 15) eqn:?; destruct (len <? 5) eqn:?; lia. }
  rewrite Hc, Ho. unfold tag_meta. destruct (num <? 15) eqn:?; destruct (len <? 5) eqn:?; lia.
Qed.

(** ** unsigned contents *)
Lemma log2_lt : forall v k, 0 <= k -> v < 2 ^ k -> 0 < v -> Z.log2 v < k.
Proof. intros. apply Z.log2_lt_pow2; lia. Qed.
Lemma usize_cases : forall v, 0 <= v < 2 ^ 32 ->
  (v < 256 /\ usize v = 1) \/ (256 <= v < 65536 /\ usize v = 2) \/
  (65536 <= v < 16777216 /\ usize v = 3) \/ (16777216 <= v /\ usize v = 4).
Proof.
  intros v Hv. unfold usize.
  destruct (Z.eq_dec v 0) as [->|Hnz]; [left; simpl; lia|].
  pose proof (Z.log2_nonneg v).
  destruct (Z_lt_dec v 256); [|destruct (Z_lt_dec v 65536); [|destruct (Z_lt_dec v 16777216)]].
  - left. split; [lia|]. assert (Z.log2 v < 8) by (apply log2_lt; simpl; lia). lia.
  - right; left. split; [lia|].
    assert (Z.log2 v < 16) by (apply log2_lt; simpl; lia).
    assert (8 <= Z.log2 v) by (apply Z.log2_le_pow2; simpl; lia). lia.
  - right; right; left. split; [lia|].
    assert (Z.log2 v < 24) by (apply log2_lt; simpl; lia).
    assert (16 <= Z.log2 v) by (apply Z.log2_le_pow2; simpl; lia). lia.
  - right; right; right. split; [lia|].
    assert (Z.log2 v < 32) by (apply log2_lt; simpl in *; lia).
    assert (24 <= Z.log2 v) by (apply Z.log2_le_pow2; simpl; lia). lia.
Qed.

Lemma valueLength_usize : forall v, 0 <= v < 2 ^ 32 -> valueLength v = usize v.
Proof.
  intros v Hv. unfold valueLength.
  destruct (usize_cases v Hv) as [[? ->]|[[? ->]|[[? ->]|[? ->]]]]; repeat dif; reflexivity.
Qed.
Lemma usize_bound : forall v, 0 <= v < 2 ^ 32 -> 1 <= usize v <= 4.
Proof. intros v Hv. destruct (usize_cases v Hv) as [[? ->]|[[? ->]|[[? ->]|[? ->]]]]; lia. Qed.

Lemma land_ff : forall v, Z.land v 255 = v mod 256.
Proof. intros. change 255 with (Z.ones 8). rewrite Z.land_ones by lia. reflexivity. Qed.
Lemma byte1_of : forall v, Z.shiftr (Z.land v 65280) 8 = (v / 256) mod 256.
Proof.
  intros. rewrite Z.shiftr_land. rewrite Z.shiftr_div_pow2 by lia.
  change (Z.shiftr 65280 8) with 255. rewrite land_ff. reflexivity.
Qed.
Lemma byte2_of : forall v, Z.shiftr (Z.land v 16711680) 16 = (v / 65536) mod 256.
Proof.
  intros. rewrite Z.shiftr_land. rewrite Z.shiftr_div_pow2 by lia.
  change (Z.shiftr 16711680 16) with 255. rewrite land_ff. reflexivity.
Qed.

Lemma enc_unsigned_spec : forall v b, 0 <= v < 2 ^ 32 ->
  enc_unsigned v (mkEnc b None) = mkEnc (b ++ spec_unsigned v) None.
Proof.
  intros v b Hv. unfold enc_unsigned, spec_unsigned.
  destruct (usize_cases v Hv) as [[H1 H2]|[[H1 H2]|[[H1 H2]|[H1 H2]]]]; rewrite H2.
  - replace (v <? 256) with true by lia. unfold write_u8. rewrite be8_octets. reflexivity.
  - replace (v <? 256) with false by lia. replace (v <? 65536) with true by lia.
    unfold write_u16. rewrite be16_octets. reflexivity.
  - replace (v <? 256) with false by lia. replace (v <? 65536) with false by lia.
    replace (v <? 16777216) with true by lia. unfold enc_unsigned24.
    rewrite byte1_of, byte2_of, land_ff. unfold u8. rewrite !Z.mod_mod by lia.
    rewrite !write_u8_ok by (apply Z.mod_pos_bound; lia). rewrite <- !app_assoc.
    change (Z.to_nat 3) with 3%nat. unfold octets. simpl Z.of_nat. rewrite Z.pow_0_r, Z.div_1_r. reflexivity.
  - replace (v <? 256) with false by lia. replace (v <? 65536) with false by lia.
    replace (v <? 16777216) with false by lia. unfold write_u32. rewrite be32_octets. reflexivity.
Qed.

Lemma lor_disjoint : forall a b n, 0 <= n -> 0 <= b < 2 ^ n -> Z.lor (a * 2 ^ n) b = a * 2 ^ n + b.
Proof.
  intros a b n Hn Hb.
  assert (Z.land (a * 2 ^ n) b = 0).
  { apply Z.bits_inj'. intros m Hm. rewrite Z.land_spec, Z.bits_0.
    destruct (Z.ltb_spec m n).
    - rewrite Z.mul_pow2_bits_low by lia. reflexivity.
    - assert (2 ^ n <= 2 ^ m) by (apply Z.pow_le_mono_r; lia).
      replace (Z.testbit b m) with false; [apply andb_false_r|].
      symmetry. apply Z.testbit_false; [lia|]. rewrite Z.div_small by lia. reflexivity. }
  rewrite Z.add_nocarry_lxor by assumption. rewrite Z.lxor_lor by assumption. reflexivity.
Qed.

Lemma comb24 : forall a b c, is_byte a -> is_byte b -> is_byte c ->
  Z.lor (Z.lor (Z.land (u32 (Z.shiftl a 16)) 16711680) (Z.land (u32 (Z.shiftl b 8)) 65280)) (Z.land c 255)
  = a * 65536 + b * 256 + c.
Proof.
  intros a b c Ha Hb Hc. unfold is_byte in *.
  rewrite !Z.shiftl_mul_pow2 by lia. unfold u32.
  rewrite !Z.mod_small by (simpl; lia).
  assert (E1 : Z.land (a * 2 ^ 16) 16711680 = a * 2 ^ 16).
  { change 16711680 with (255 * 2 ^ 16). rewrite <- !Z.shiftl_mul_pow2 by lia.
    rewrite <- Z.shiftl_land. rewrite land_ff, Z.mod_small by lia. reflexivity. }
  assert (E2 : Z.land (b * 2 ^ 8) 65280 = b * 2 ^ 8).
  { change 65280 with (255 * 2 ^ 8). rewrite <- !Z.shiftl_mul_pow2 by lia.
    rewrite <- Z.shiftl_land. rewrite land_ff, Z.mod_small by lia. reflexivity. }
  rewrite E1, E2, land_ff, (Z.mod_small c) by lia.
  rewrite (lor_disjoint a (b * 2 ^ 8) 16) by (simpl; lia).
  replace (a * 2 ^ 16 + b * 2 ^ 8) with ((a * 256 + b) * 2 ^ 8) by (simpl; lia).
  rewrite lor_disjoint by (simpl; lia). simpl. lia.
Qed.

Lemma dec_unsigned24_ok : forall a b c rest p, is_byte a -> is_byte b -> is_byte c ->
  dec_unsigned24 (mkDec (a :: b :: c :: rest) p None)
  = (a * 65536 + b * 256 + c, mkDec rest (Some c) None).
Proof.
  intros. unfold dec_unsigned24. rewrite !decode_u1_ok. rewrite comb24 by assumption. reflexivity.
Qed.

(** reading [n] (1..4) octets of any unsigned value that fits *)
Lemma dec_unsigned_octets : forall n v rest p, (1 <= n <= 4)%nat -> 0 <= v < 256 ^ Z.of_nat n ->
  dec_unsigned (Z.of_nat n) (mkDec (octets n v ++ rest) p None)
  = (v, mkDec rest (Some (last (octets n v) 0)) None).
Proof.
  intros n v rest p Hn Hv. unfold dec_unsigned.
  assert (C : n = 1%nat \/ n = 2%nat \/ n = 3%nat \/ n = 4%nat) by lia.
  destruct C as [->|[->|[->| ->]]]; simpl Z.of_nat; cbn [Z.eqb Pos.eqb].
  - apply decode_u_octets; auto.
  - apply decode_u_octets; auto.
  - cbn [octets app last]. simpl Z.of_nat. rewrite Z.pow_0_r, Z.div_1_r.
    rewrite dec_unsigned24_ok by (unfold is_byte; apply Z.mod_pos_bound; lia).
    f_equal. simpl in Hv. simpl. lia.
  - apply decode_u_octets; auto.
Qed.
Lemma usize_fits : forall v, 0 <= v < 2 ^ 32 -> 0 <= v < 256 ^ usize v.
Proof. intros v Hv. destruct (usize_cases v Hv) as [[? ->]|[[? ->]|[[? ->]|[? ->]]]]; simpl in *; lia. Qed.
Lemma dec_unsigned_spec : forall v rest p, 0 <= v < 2 ^ 32 ->
  dec_unsigned (usize v) (mkDec (spec_unsigned v ++ rest) p None)
  = (v, mkDec rest (Some (last (spec_unsigned v) 0)) None).
Proof.
  intros v rest p Hv. unfold spec_unsigned.
  pose proof (usize_bound v Hv). pose proof (usize_fits v Hv).
  rewrite <- (Z2Nat.id (usize v)) at 1 by lia.
  apply dec_unsigned_octets; [lia|]. rewrite Z2Nat.id by lia. assumption.
Qed.

(** ** object identifiers *)
Lemma objectId_u32_spec : forall t i, 0 <= t <= 1023 -> 0 <= i <= 4194303 ->
  objectId_u32 t i = t * 2 ^ 22 + i.
Proof.
  intros t i Ht Hi. unfold objectId_u32, MaxObject, MaxInstance, u32.
  change 1023 with (Z.ones 10). change 4194303 with (Z.ones 22).
  rewrite !Z.land_ones by lia. rewrite Z.shiftl_mul_pow2 by lia.
  rewrite (Z.mod_small t) by (simpl; lia). rewrite (Z.mod_small i) by (simpl; lia).
  rewrite Z.mod_small by (simpl; lia). apply lor_disjoint; simpl; lia.
Qed.
Lemma objectId_u32_gen : forall t i, 0 <= t -> 0 <= i ->
  objectId_u32 t i = (t mod 1024) * 2 ^ 22 + i mod 4194304.
Proof.
  intros t i Ht Hi. unfold objectId_u32, MaxObject, MaxInstance, u32.
  change 1023 with (Z.ones 10). change 4194303 with (Z.ones 22).
  rewrite !Z.land_ones by lia. rewrite Z.shiftl_mul_pow2 by lia.
  rewrite Z.mod_small by (simpl; lia). apply lor_disjoint; simpl; lia.
Qed.
Lemma enc_objectId_spec : forall o b, valid_oid o ->
  enc_objectId o (mkEnc b None) = mkEnc (b ++ spec_oid o) None.
Proof.
  intros o b [Ht Hi]. unfold enc_objectId, spec_oid, write_u32.
  rewrite objectId_u32_spec by assumption. rewrite be32_octets. reflexivity.
Qed.
Lemma dec_objectId_spec : forall o rest p, valid_oid o ->
  dec_objectId (mkDec (spec_oid o ++ rest) p None)
  = (o, mkDec rest (Some (last (spec_oid o) 0)) None).
Proof.
  intros [t i] rest p [Ht Hi]. cbn [oid_type oid_inst] in *. unfold dec_objectId, spec_oid. cbn [oid_type oid_inst].
  rewrite decode_u_octets by (simpl; try congruence; lia).
  unfold MaxObject, MaxInstance. change 1023 with (Z.ones 10). change 4194303 with (Z.ones 22).
  rewrite !Z.land_ones by lia. rewrite Z.shiftr_div_pow2 by lia.
  do 2 f_equal; simpl; lia.
Qed.

(** ** signed contents *)
Lemma ssize_cases : forall v, - 2 ^ 31 <= v < 2 ^ 31 ->
  (-128 <= v < 128 /\ ssize v = 1) \/
  (~ (-128 <= v < 128) /\ -32768 <= v < 32768 /\ ssize v = 2) \/
  (~ (-32768 <= v < 32768) /\ -8388608 <= v < 8388608 /\ ssize v = 3) \/
  (~ (-8388608 <= v < 8388608) /\ ssize v = 4).
Proof.
  intros v Hv. unfold ssize. set (w := if v <? 0 then - v - 1 else v).
  assert (Hw : 0 <= w < 2 ^ 31) by (unfold w; destruct (v <? 0) eqn:?; lia).
  assert (B : forall k, -k <= v < k <-> w < k) by (intros; unfold w; destruct (v <? 0) eqn:?; lia).
  pose proof (B 128). pose proof (B 32768). pose proof (B 8388608). clear B.
  destruct (Z.eq_dec w 0) as [E|Hnz].
  { left. rewrite E. split; [|reflexivity]. lia. }
  pose proof (Z.log2_nonneg w).
  destruct (Z_lt_dec w 128); [|destruct (Z_lt_dec w 32768); [|destruct (Z_lt_dec w 8388608)]].
  - left. assert (Z.log2 w < 7) by (apply log2_lt; simpl; lia). lia.
  - right; left. assert (Z.log2 w < 15) by (apply log2_lt; simpl; lia).
    assert (7 <= Z.log2 w) by (apply Z.log2_le_pow2; simpl; lia). lia.
  - right; right; left. assert (Z.log2 w < 23) by (apply log2_lt; simpl; lia).
    assert (15 <= Z.log2 w) by (apply Z.log2_le_pow2; simpl; lia). lia.
  - right; right; right. assert (Z.log2 w < 31) by (apply log2_lt; simpl in *; lia).
    assert (23 <= Z.log2 w) by (apply Z.log2_le_pow2; simpl; lia). lia.
Qed.

Lemma i8_byte_land : forall a, is_byte a -> Z.land (i8 a) 255 = a.
Proof.
  intros a Ha. rewrite land_ff. unfold i8, is_byte in *. lia.
Qed.
Lemma comb24s : forall a b c, is_byte a -> is_byte b -> is_byte c ->
  Z.lor (Z.lor (Z.land (i32 (Z.shiftl (i8 a) 16)) 16711680) (Z.land (i32 (Z.shiftl (i8 b) 8)) 65280))
        (Z.land (i8 c) 255) = a * 65536 + b * 256 + c.
Proof.
  intros a b c Ha Hb Hc.
  assert (S : forall x k m, is_byte x -> (k = 8 /\ m = 65280) \/ (k = 16 /\ m = 16711680) ->
              Z.land (i32 (Z.shiftl (i8 x) k)) m = x * 2 ^ k).
  { intros x k m Hx Hk. rewrite Z.shiftl_mul_pow2 by lia.
    assert (Hi : i32 (i8 x * 2 ^ k) = i8 x * 2 ^ k).
    { unfold i32. rewrite Z.mod_small; [lia|]. unfold i8, is_byte in *.
      destruct Hk as [[-> _]|[-> _]]; simpl; lia. }
    rewrite Hi. rewrite <- Z.shiftl_mul_pow2 by lia.
    replace m with (Z.shiftl 255 k) by (destruct Hk as [[-> ->]|[-> ->]]; reflexivity).
    rewrite <- Z.shiftl_land, i8_byte_land by assumption. rewrite Z.shiftl_mul_pow2 by lia. reflexivity. }
  rewrite (S a 16 16711680) by auto. rewrite (S b 8 65280) by auto. rewrite i8_byte_land by assumption.
  unfold is_byte in *.
  rewrite (lor_disjoint a (b * 2 ^ 8) 16) by (simpl; lia).
  replace (a * 2 ^ 16 + b * 2 ^ 8) with ((a * 256 + b) * 2 ^ 8) by (simpl; lia).
  rewrite lor_disjoint by (simpl; lia). simpl. lia.
Qed.
Lemma dec_signed24_ok : forall a b c rest p, is_byte a -> is_byte b -> is_byte c ->
  dec_signed24 (mkDec (a :: b :: c :: rest) p None)
  = (a * 65536 + b * 256 + c, mkDec rest (Some c) None).
Proof. intros. unfold dec_signed24. rewrite !decode_u1_ok. rewrite comb24s by assumption. reflexivity. Qed.

(** reading n octets of a number as signed: two's complement for 1, 2 and 4
    octets, but unsigned for 3 *)
Definition read_signed_as (n : nat) (u : Z) : Z :=
  match n with
  | 1%nat => i8 u | 2%nat => i16 u | 3%nat => u | _ => i32 u
  end.
Lemma dec_signed_octets : forall n u rest p, (1 <= n <= 4)%nat -> 0 <= u < 256 ^ Z.of_nat n ->
  dec_signed (Z.of_nat n) (mkDec (octets n u ++ rest) p None)
  = (read_signed_as n u, mkDec rest (Some (last (octets n u) 0)) None).
Proof.
  intros n v rest p Hn Hv. unfold dec_signed.
  assert (C : n = 1%nat \/ n = 2%nat \/ n = 3%nat \/ n = 4%nat) by lia.
  destruct C as [->|[->|[->| ->]]]; simpl Z.of_nat; cbn [Z.eqb Pos.eqb].
  - rewrite decode_u_octets by auto. reflexivity.
  - rewrite decode_u_octets by auto. reflexivity.
  - cbn [octets app last]. simpl Z.of_nat. rewrite Z.pow_0_r, Z.div_1_r.
    rewrite dec_signed24_ok by (unfold is_byte; apply Z.mod_pos_bound; lia).
    f_equal. simpl in Hv. simpl. lia.
  - rewrite decode_u_octets by auto. reflexivity.
Qed.
