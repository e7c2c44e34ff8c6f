(** The codec properties in their final form (quoted by PropCodec.v). *)
From Coq Require Import Lia ZifyBool ZifyNat.
From Verif Require Import ModelBits SpecWire SpecCodec ProofsWire ProofsTag ProofsApp ProofsBits ProofsTrunc.
Ltac Zify.zify_post_hook ::= Z.div_mod_to_equations.

(** ** C01 *)
Lemma tag_header_round : forall ctx num len rest, 0 <= num < 256 -> 0 <= len < 2 ^ 32 ->
  exists bs meta d,
    enc_tag (mkTag num ctx len false false) newEncoder = mkEnc bs None
    /\ bs = spec_tag (if ctx then 1 else 0) num len
    /\ tagNumberAndValue (newDecoder (bs ++ rest)) = ((num, meta, len), d)
    /\ meta_isContextSpecific meta = ctx
    /\ meta_isOpening meta = false /\ meta_isClosing meta = false
    /\ dbuf d = rest /\ derr d = None.
Proof.
  intros ctx num len rest Hn Hl. unfold newEncoder, newDecoder.
  rewrite enc_tag_spec by assumption. unfold cls_z.
  assert (Hc : 0 <= (if ctx then 1 else 0) <= 1) by (destruct ctx; lia).
  do 3 eexists. split; [reflexivity|]. split; [reflexivity|].
  split; [apply tag_round; assumption|].
  destruct (tag_meta_notclosing _ num len Hc Hn ltac:(lia)) as [H1 H2].
  rewrite tag_meta_ctx by lia. repeat split; try assumption. destruct ctx; reflexivity.
Qed.

Lemma open_tag_enc : forall num b, 0 <= num < 256 ->
  openingTag num (mkEnc b None) = mkEnc (b ++ spec_open num) None
  /\ closingTag num (mkEnc b None) = mkEnc (b ++ spec_close num) None.
Proof.
  intros num b Hn. unfold openingTag, closingTag, enc_tagNum, spec_open, spec_close.
  change (meta_setOpening 0) with 14. change (meta_setClosing 0) with 15.
  destruct (num <? 15) eqn:E.
  - replace (num <=? 14) with true by lia.
    pose proof (sweep1 15 (fun n => (Z.lor 14 (u8 (Z.shiftl n 4)) =? n * 16 + 14) && (Z.lor 15 (u8 (Z.shiftl n 4)) =? n * 16 + 15))
      eq_refl num ltac:(lia)) as HS. cbv beta in HS. rewrite andb_true_iff, !Z.eqb_eq in HS. destruct HS as [H1 H2].
    rewrite H1, H2. rewrite !write_u8_ok by lia. split; reflexivity.
  - replace (num <=? 14) with false by lia. change (Z.lor 14 240) with 254. change (Z.lor 15 240) with 255.
    rewrite !write_u8_ok by lia. rewrite <- !app_assoc. split; reflexivity.
Qed.
Definition open_meta (num : Z) : Z := (if num <? 15 then num else 15) * 16 + 14.
Definition close_meta (num : Z) : Z := (if num <? 15 then num else 15) * 16 + 15.
Lemma open_meta_facts : forall num, 0 <= num < 256 ->
  is_byte (open_meta num) /\ is_byte (close_meta num)
  /\ meta_isOpening (open_meta num) = true /\ meta_isClosing (open_meta num) = false
  /\ meta_isContextSpecific (open_meta num) = true /\ meta_isExtendedValue (open_meta num) = false
  /\ meta_isClosing (close_meta num) = true /\ meta_isOpening (close_meta num) = true
  /\ meta_isContextSpecific (close_meta num) = true /\ meta_isExtendedValue (close_meta num) = false.
Proof.
  intros num Hn. set (n := if num <? 15 then num else 15). unfold open_meta, close_meta. fold n.
  assert (Hn15 : 0 <= n < 16) by (unfold n; destruct (num <? 15) eqn:?; lia).
  assert (Ho : is_byte (n * 16 + 14)) by (unfold is_byte; lia).
  assert (Hc : is_byte (n * 16 + 15)) by (unfold is_byte; lia).
  destruct (meta_facts _ Ho) as (-> & -> & -> & -> & _). destruct (meta_facts _ Hc) as (-> & -> & -> & -> & _).
  repeat split; unfold is_byte in *; lia.
Qed.
Lemma tagNumber_open : forall num rest p, 0 <= num < 256 ->
  tagNumber (mkDec (spec_open num ++ rest) p None)
  = ((num, open_meta num), mkDec rest (Some (last (spec_open num) 0)) None).
Proof.
  intros num rest p Hn. unfold tagNumber, spec_open.
  destruct (open_meta_facts num Hn) as (Hb & _). destruct (meta_facts _ Hb) as (_ & _ & _ & _ & Hx & Hs & _).
  unfold open_meta in *. destruct (num <? 15) eqn:E; cbn [app]; rewrite decode_u1_ok, Hx, Hs.
  - replace (240 <=? num * 16 + 14) with false by lia. replace ((num * 16 + 14) / 16) with num by lia. reflexivity.
  - replace (240 <=? 15 * 16 + 14) with true by lia. rewrite decode_u1_ok. reflexivity.
Qed.
Lemma tagNumber_close : forall num rest p, 0 <= num < 256 ->
  tagNumber (mkDec (spec_close num ++ rest) p None)
  = ((num, close_meta num), mkDec rest (Some (last (spec_close num) 0)) None).
Proof.
  intros num rest p Hn. unfold tagNumber, spec_close.
  destruct (open_meta_facts num Hn) as (_ & Hb & _). destruct (meta_facts _ Hb) as (_ & _ & _ & _ & Hx & Hs & _).
  unfold close_meta in *. destruct (num <? 15) eqn:E; cbn [app]; rewrite decode_u1_ok, Hx, Hs.
  - replace (240 <=? num * 16 + 15) with false by lia. replace ((num * 16 + 15) / 16) with num by lia. reflexivity.
  - replace (240 <=? 15 * 16 + 15) with true by lia. rewrite decode_u1_ok. reflexivity.
Qed.
Lemma bracket_round : forall num rest, 0 <= num < 256 ->
  (exists meta d, openingTag num newEncoder = mkEnc (spec_open num) None
   /\ tagNumber (newDecoder (spec_open num ++ rest)) = ((num, meta), d)
   /\ meta_isOpening meta = true /\ meta_isClosing meta = false /\ dbuf d = rest /\ derr d = None)
  /\ (exists meta d, closingTag num newEncoder = mkEnc (spec_close num) None
   /\ tagNumber (newDecoder (spec_close num ++ rest)) = ((num, meta), d)
   /\ meta_isClosing meta = true /\ dbuf d = rest /\ derr d = None).
Proof.
  intros num rest Hn. unfold newEncoder, newDecoder.
  destruct (open_tag_enc num [] Hn) as [E1 E2]. rewrite E1, E2.
  destruct (open_meta_facts num Hn) as (_ & _ & H1 & H2 & _ & _ & H3 & _).
  split; do 2 eexists; (split; [reflexivity|]).
  - split; [apply tagNumber_open; assumption|]. auto.
  - split; [apply tagNumber_close; assumption|]. auto.
Qed.

(** ** C02 *)
Lemma unsigned_minimal : forall v rest, 0 <= v < 2 ^ 32 ->
  exists n d, (1 <= n <= 4)%nat
  /\ enc_unsigned v newEncoder = mkEnc (octets n v) None
  /\ v < 256 ^ Z.of_nat n /\ (n = 1%nat \/ 256 ^ (Z.of_nat n - 1) <= v)
  /\ dec_unsigned (Z.of_nat n) (newDecoder (octets n v ++ rest)) = (v, d)
  /\ dbuf d = rest /\ derr d = None.
Proof.
  intros v rest Hv. pose proof (usize_bound v Hv). pose proof (usize_fits v Hv) as Hf.
  exists (Z.to_nat (usize v)). eexists. rewrite Z2Nat.id by lia.
  split; [lia|]. split; [unfold newEncoder; rewrite enc_unsigned_spec by assumption; reflexivity|].
  split; [lia|]. split.
  { destruct (usize_cases v Hv) as [[? ->]|[[? ->]|[[? ->]|[? ->]]]]; simpl; lia. }
  split; [apply (dec_unsigned_spec v rest None Hv)|]. split; reflexivity.
Qed.

(** ** C03, C04 *)
Definition oid_bytes (o : object_id) : list Z := ebuf (enc_objectId o newEncoder).
Lemma oid_round_inj :
  (forall o rest, valid_oid o -> exists d,
     enc_objectId o newEncoder = mkEnc (spec_oid o) None
     /\ dec_objectId (newDecoder (spec_oid o ++ rest)) = (o, d) /\ dbuf d = rest /\ derr d = None)
  /\ (forall o1 o2, valid_oid o1 -> valid_oid o2 ->
      enc_objectId o1 newEncoder = enc_objectId o2 newEncoder -> o1 = o2).
Proof.
  assert (R : forall o rest, valid_oid o -> exists d,
     enc_objectId o newEncoder = mkEnc (spec_oid o) None
     /\ dec_objectId (newDecoder (spec_oid o ++ rest)) = (o, d) /\ dbuf d = rest /\ derr d = None).
  { intros o rest Ho. eexists. split; [unfold newEncoder; rewrite enc_objectId_spec by assumption; reflexivity|].
    split; [apply (dec_objectId_spec o rest None Ho)|]. split; reflexivity. }
  split; [exact R|]. intros o1 o2 H1 H2 E.
  destruct (R o1 [] H1) as (d1 & E1 & D1 & _). destruct (R o2 [] H2) as (d2 & E2 & D2 & _).
  rewrite E1, E2 in E. apply (f_equal ebuf) in E. cbn [ebuf] in E. rewrite E in D1. rewrite D1 in D2. congruence.
Qed.
Lemma oid_alias_exact : forall t i, 0 <= t < 65536 -> 0 <= i < 2 ^ 32 ->
  enc_objectId (mkOid t i) newEncoder = enc_objectId (mkOid (t mod 1024) (i mod 4194304)) newEncoder.
Proof.
  intros t i Ht Hi. unfold enc_objectId. cbn [oid_type oid_inst]. f_equal.
  rewrite !objectId_u32_gen by lia. rewrite !Z.mod_mod by lia. reflexivity.
Qed.

(** ** C05-C07 *)
Lemma app_round : forall v rest, writable v -> (forall n, v <> VInt n) ->
  exists bs, writes v bs /\ reads (bs ++ rest) (as_read v) rest.
Proof.
  intros v rest Hw Hi. exists (app_written v). split.
  - unfold writes, newEncoder. rewrite enc_app_written by assumption. reflexivity.
  - unfold reads, newDecoder.
    assert (C : (exists x, v = VDouble x) \/ (readable v /\ app_written v = spec_app v)).
    { destruct v; simpl in *; try contradiction; try (right; split; [auto|reflexivity]); try (left; eauto; fail);
      try (exfalso; eapply Hi; reflexivity). }
    destruct C as [[x ->]|[Hr ->]].
    + eexists. split; [apply dec_double_written; exact Hw|]. split; reflexivity.
    + eexists. split; [apply dec_app_readable; exact Hr|]. split; reflexivity.
Qed.
Lemma int_round_iff : forall n rest, in_i32 n ->
  (exists bs, writes (VInt n) bs /\ reads (bs ++ rest) (VInt n) rest)
  <-> ~ (128 <= n < 256 \/ 32768 <= n < 65536).
Proof.
  intros n rest Hn. rewrite <- int_reread_iff by assumption.
  assert (W : writes (VInt n) (app_written (VInt n))).
  { unfold writes, newEncoder. rewrite enc_app_written by exact Hn. reflexivity. }
  split.
  - intros (bs & Hb & d & Hd & _). unfold writes in *. rewrite W in Hb. assert (Hbs : bs = app_written (VInt n)) by congruence. subst bs.
    unfold newDecoder in Hd. rewrite dec_int_written in Hd by assumption. congruence.
  - intro E. exists (app_written (VInt n)). split; [exact W|]. eexists. unfold newDecoder.
    split; [rewrite dec_int_written by assumption; rewrite E; reflexivity|]. split; reflexivity.
Qed.

Lemma written_iff : forall v, writable v -> (writes v (spec_app v) <-> written_standard v).
Proof.
  intros v Hw. unfold writes, newEncoder. rewrite enc_app_written by assumption. cbn [app].
  destruct v; simpl in Hw; try contradiction; cbn [written_standard]; try (cbn [app_written]; tauto).
  - rewrite <- int_written_iff by assumption. split; intro E; congruence.
  - cbn [app_written spec_app]. split; [|contradiction]. intro E. assert (E2 : spec_tag 0 5 4 ++ octets 8 bits = spec_tag 0 5 8 ++ octets 8 bits) by congruence. discriminate E2.
Qed.

(** ** C08, C09 *)
Lemma app_conforming : forall v rest, readable v -> reads (spec_app v ++ rest) (as_read v) rest.
Proof.
  intros v rest Hr. eexists. unfold newDecoder. split; [apply dec_app_readable; exact Hr|]. split; reflexivity.
Qed.
Lemma date_read : forall d rest, valid_date d ->
  reads (spec_app (VDate d) ++ rest)
    (VDate (mkDate ((if d_year d =? 255 then 2155 else d_year d) + 90) (d_month d) (d_day d) (d_dow d))) rest.
Proof.
  intros d rest (Hy & Hm & Hd & Hw). unfold reads, newDecoder. cbn [spec_app].
  rewrite tag_app by lia. unfold AppDataOfTag; unfold_tags; cbn [Z.eqb Pos.eqb].
  destruct d as [y m dd w]. cbn [d_year d_month d_day d_dow] in *.
  replace ((if y =? 255 then 2155 else y) + 90) with ((if y =? 255 then 255 else y - 1900) + 1990)
    by (destruct (y =? 255) eqn:E; lia).
  generalize (if y =? 255 then 255 else y - 1900) as yy. intro yy.
  eexists. split; [|split].
  - reflexivity.
  - reflexivity.
  - reflexivity.
Qed.
Lemma int3_negative : forall n rest, -8388608 <= n < -32768 ->
  reads (spec_app (VInt n) ++ rest) (VInt (n + 16777216)) rest.
Proof.
  intros n rest Hn. unfold reads, newDecoder. cbn [spec_app].
  assert (Hi : in_i32 n) by (unfold in_i32; lia). pose proof (ssize_bound n Hi).
  rewrite tag_app by lia. unfold AppDataOfTag; unfold_tags; cbn [Z.eqb Pos.eqb].
  assert (Hs : ssize n = 3) by (destruct (ssize_cases n Hi) as [[? ->]|[[? [? ->]]|[[? [? ->]]|[? ->]]]]; lia).
  unfold spec_signed. rewrite Hs. change (Z.to_nat 3) with 3%nat.
  rewrite (dec_signed_octets 3 (n mod 256 ^ 3)) by (try lia; apply Z.mod_pos_bound; reflexivity).
  cbn [read_signed_as derr]. replace (n mod 256 ^ 3) with (n + 16777216).
  - eexists. split; [reflexivity|]. split; reflexivity.
  - change (256 ^ 3) with 16777216. lia.
Qed.
Lemma long_unsigned : forall w rest, is_bytes w -> 5 <= zlen w < 2 ^ 32 ->
  reads (spec_tag 0 2 (zlen w) ++ w ++ rest) (VUint 0) (w ++ rest).
Proof.
  intros w rest Hw Hl. unfold reads, newDecoder. rewrite app_assoc. rewrite tag_app by lia.
  unfold AppDataOfTag; unfold_tags; cbn [Z.eqb Pos.eqb]. unfold dec_unsigned.
  replace (zlen w =? 1) with false by lia. replace (zlen w =? 2) with false by lia.
  replace (zlen w =? 3) with false by lia. replace (zlen w =? 4) with false by lia.
  eexists. split; [reflexivity|]. split; reflexivity.
Qed.
Lemma long_integers : forall num w rest, num = 3 \/ num = 9 -> is_bytes w -> 5 <= zlen w < 2 ^ 32 ->
  reads (spec_tag 0 num (zlen w) ++ w ++ rest) (if num =? 3 then VInt 0 else VUint 0) (w ++ rest).
Proof.
  intros num w rest Hn Hw Hl. unfold reads, newDecoder. rewrite app_assoc. destruct Hn as [-> | ->]; rewrite tag_app by lia;
  unfold AppDataOfTag; unfold_tags; cbn [Z.eqb Pos.eqb]; unfold dec_enumerated, dec_signed, dec_unsigned;
  replace (zlen w =? 1) with false by lia; replace (zlen w =? 2) with false by lia;
  replace (zlen w =? 3) with false by lia; replace (zlen w =? 4) with false by lia;
  (eexists; split; [reflexivity|]; split; reflexivity).
Qed.
Lemma long_bits : forall l rest, 120 < zlen l <= 2040 ->
  reads (spec_bits l ++ rest) (VBits (Some (mkBits 0 (zeros 15)))) rest.
Proof.
  intros l rest Hl. unfold reads, newDecoder, spec_bits.
  assert (Hb : 16 <= bit_octets l <= 255) by (unfold bit_octets; lia).
  rewrite tag_app by lia. unfold AppDataOfTag; unfold_tags; cbn [Z.eqb Pos.eqb].
  unfold dec_bitString. replace (bit_octets l + 1 <=? 0) with false by lia.
  rewrite decode_n_ok by (try (cbn [length]; rewrite pack_length); lia). cbv zeta.
  replace (bit_octets l + 1 - 1) with (bit_octets l) by lia.
  unfold u8. rewrite Z.mod_small by lia. replace (bit_octets l <=? maxBitStringBytes) with false by (unfold maxBitStringBytes; lia).
  unfold newBitString. replace (maxBitStringBytes <? bit_octets l) with true by (unfold maxBitStringBytes; lia).
  cbn [obind derr]. eexists. split; [reflexivity|]. split; reflexivity.
Qed.
(** unsupported character sets and unsupported tags are refused *)
Lemma charset_refused : forall c w rest, is_byte c -> c <> 0 -> c <> 4 -> 0 <= zlen w < 2 ^ 32 - 1 ->
  exists d, dec_AppData (newDecoder (spec_tag 0 7 (zlen w + 1) ++ c :: w ++ rest))
            = Val (VString [], Some (EUnsupportedString c)) d.
Proof.
  intros c w rest Hc H0 H4 Hl. unfold newDecoder.
  change (c :: w ++ rest) with ([c] ++ w ++ rest). rewrite app_assoc. rewrite tag_app by lia.
  unfold AppDataOfTag; unfold_tags; cbn [Z.eqb Pos.eqb]. unfold dec_string. cbn [app]. rewrite decode_u1_ok.
  replace (c =? 0) with false by lia. replace (c =? 4) with false by lia. cbn [orb obind fst snd]. eauto.
Qed.
Lemma tag_refused : forall num w rest, 13 <= num < 256 -> 0 <= zlen w < 2 ^ 32 ->
  exists d, dec_AppData (newDecoder (spec_tag 0 num (zlen w) ++ w ++ rest)) = Val (VNil, Some (EUnsupportedTag num)) d.
Proof.
  intros num w rest Hn Hl. unfold newDecoder. rewrite app_assoc. rewrite tag_app by lia.
  unfold AppDataOfTag; unfold_tags.
  repeat match goal with |- context [?a =? ?b] => replace (a =? b) with false by lia end. cbv iota. eauto.
Qed.

(** ** C10 *)
Lemma bits_positions : forall l rest, zlen l <= 120 ->
  exists b, reads (spec_bits l ++ rest) (VBits (Some b)) rest /\ bs_GetValue b = ROk l /\ bs_used b = zlen l.
Proof.
  intros l rest Hl. exists (bits_of l). split; [|split; [apply bits_of_get; assumption|reflexivity]].
  eexists. unfold newDecoder. split; [apply dec_bits; assumption|]. split; reflexivity.
Qed.

(** ** C11, C12 *)
Lemma truncation_exact :
  (forall v pre suf, conforming v -> spec_app v = pre ++ suf -> suf <> [] ->
    (reported (dec_AppData (newDecoder pre)) <-> trunc_reports v pre)
    /\ (~ trunc_reports v pre ->
        match v with
        | VString _ => dec_AppData (newDecoder pre) = Panic
        | _ => exists w, reads pre w [] /\ reads (pre ++ repeat 0 (length suf)) w []
        end))
  /\ (forall l pre suf, zlen l < 2 ^ 32 -> spec_bits l = pre ++ suf -> suf <> [] ->
     reported (dec_AppData (newDecoder pre))).
Proof.
  split; intros; unfold newDecoder.
  - apply (trunc_exact v pre suf); assumption.
  - apply (trunc_bits l pre suf); assumption.
Qed.
Lemma value_panic_iff : forall bs, is_bytes bs -> (dec_AppData (newDecoder bs) = Panic <-> value_panics bs).
Proof. intros. apply app_panic_iff. assumption. Qed.
(** decoding a value needs no loop, so it never runs out of fuel *)
Lemma value_no_fuel : forall d, dec_AppData d <> Fuel.
Proof.
  intros d. unfold dec_AppData. destruct (tagNumberAndValue d) as [[[tag meta] len] d'].
  unfold AppDataOfTag.
  repeat match goal with
  | |- context [if ?c then _ else _] => destruct c
  | |- context [let '(_, _) := ?x in _] => destruct x
  end; try congruence.
  - unfold dec_string. destruct (decode_u 1 0 d'). destruct ((z =? 0) || (z =? 4)); [|cbn; congruence].
    destruct (len - 1 <? 0); [cbn; congruence|]. destruct (decode_n _ d0). cbn; congruence.
  - unfold dec_bitString. destruct (len <=? 0); [cbn; congruence|]. destruct (decode_n _ d').
    cbv zeta. destruct (u8 (len - 1) <=? maxBitStringBytes); [|cbn; congruence].
    destruct (bits_loop _ _ _ _); cbn; congruence.
  - unfold dec_time. destruct (len <=? 0); [cbn; congruence|]. destruct (buf_read len d') as [[? [?|]] ?]; [cbn; congruence|].
    destruct (len <? 4); cbn; congruence.
Qed.
