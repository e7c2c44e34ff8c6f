(** Properties C01-C12 and C59: the value codec.  Statements only; the proofs are
    in ProofsCodec.v and the files it imports.  Every theorem is followed by its
    assumptions and by a concrete case meeting its hypotheses. *)
From Verif Require Import ModelBits SpecWire SpecCodec ProofsCodec ProofsBits.

(** * C01 *)
Theorem c01_tag_header_round_trip : forall ctx num len rest, 0 <= num < 256 -> 0 <= len < 2 ^ 32 ->
  exists bs meta d,
    enc_tag (mkTag num ctx len false false) newEncoder = mkEnc bs None
    /\ bs = spec_tag (if ctx then 1 else 0) num len
    /\ tagNumberAndValue (newDecoder (bs ++ rest)) = ((num, meta, len), d)
    /\ meta_isContextSpecific meta = ctx
    /\ meta_isOpening meta = false /\ meta_isClosing meta = false
    /\ dbuf d = rest /\ derr d = None.
Proof. exact tag_header_round. Qed.
Print Assumptions c01_tag_header_round_trip.
Example c01_ex : enc_tag (mkTag 200 true 70000 false false) newEncoder
                 = mkEnc [253; 200; 255; 0; 1; 17; 112] None.
Proof. reflexivity. Qed.

Theorem c01_opening_closing_tags : forall num rest, 0 <= num < 256 ->
  (exists meta d, openingTag num newEncoder = mkEnc (spec_open num) None
   /\ tagNumber (newDecoder (spec_open num ++ rest)) = ((num, meta), d)
   /\ meta_isOpening meta = true /\ meta_isClosing meta = false /\ dbuf d = rest /\ derr d = None)
  /\ (exists meta d, closingTag num newEncoder = mkEnc (spec_close num) None
   /\ tagNumber (newDecoder (spec_close num ++ rest)) = ((num, meta), d)
   /\ meta_isClosing meta = true /\ dbuf d = rest /\ derr d = None).
Proof. exact bracket_round. Qed.
Print Assumptions c01_opening_closing_tags.
Example c01_open_ex : openingTag 3 newEncoder = mkEnc [62] None /\ closingTag 17 newEncoder = mkEnc [255; 17] None.
Proof. split; reflexivity. Qed.

(** * C02 *)
Theorem c02_unsigned_minimal_round_trip : forall v rest, 0 <= v < 2 ^ 32 ->
  exists n d, (1 <= n <= 4)%nat
  /\ enc_unsigned v newEncoder = mkEnc (octets n v) None
  /\ v < 256 ^ Z.of_nat n /\ (n = 1%nat \/ 256 ^ (Z.of_nat n - 1) <= v)
  /\ dec_unsigned (Z.of_nat n) (newDecoder (octets n v ++ rest)) = (v, d)
  /\ dbuf d = rest /\ derr d = None.
Proof. exact unsigned_minimal. Qed.
Print Assumptions c02_unsigned_minimal_round_trip.
Example c02_ex : enc_unsigned 65536 newEncoder = mkEnc [1; 0; 0] None
  /\ fst (dec_unsigned 3 (newDecoder [1; 0; 0; 77])) = 65536.
Proof. split; reflexivity. Qed.

(** * C03 *)
Theorem c03_object_id_round_trip_no_alias :
  (forall o rest, valid_oid o -> exists d,
     enc_objectId o newEncoder = mkEnc (spec_oid o) None
     /\ dec_objectId (newDecoder (spec_oid o ++ rest)) = (o, d) /\ dbuf d = rest /\ derr d = None)
  /\ (forall o1 o2, valid_oid o1 -> valid_oid o2 ->
      enc_objectId o1 newEncoder = enc_objectId o2 newEncoder -> o1 = o2).
Proof. exact oid_round_inj. Qed.
Print Assumptions c03_object_id_round_trip_no_alias.
Example c03_ex : valid_oid (mkOid 8 1234) /\ enc_objectId (mkOid 8 1234) newEncoder = mkEnc [2; 0; 4; 210] None.
Proof. split; [unfold valid_oid; cbn; repeat split; discriminate|reflexivity]. Qed.

(** * C04: false.  Device 4194304 + n is written as device n. *)
Theorem c04_out_of_range_object_id_refuted :
  exists o o', ~ valid_oid o /\ valid_oid o' /\ 0 <= oid_type o < 65536 /\ 0 <= oid_inst o < 2 ^ 32
  /\ enc_objectId o newEncoder = enc_objectId o' newEncoder
  /\ forall inv p, enc_ReadProperty inv (mkPD (mkObj [] [] o [p])) newEncoder
                   = enc_ReadProperty inv (mkPD (mkObj [] [] o' [p])) newEncoder.
Proof.
  exists (mkOid 8 4194309), (mkOid 8 5). unfold valid_oid. cbn [oid_type oid_inst].
  repeat split; try discriminate.
  intros [_ [_ H]]. apply H. reflexivity.
Qed.
Print Assumptions c04_out_of_range_object_id_refuted.
(** exactly which object each out-of-range identifier is sent as *)
Theorem c04_alias_exact_partial : forall t i, 0 <= t < 65536 -> 0 <= i < 2 ^ 32 ->
  enc_objectId (mkOid t i) newEncoder = enc_objectId (mkOid (t mod 1024) (i mod 4194304)) newEncoder.
Proof. exact oid_alias_exact. Qed.
Print Assumptions c04_alias_exact_partial.
Example c04_ex : enc_objectId (mkOid 1026 4194309) newEncoder = enc_objectId (mkOid 2 5) newEncoder.
Proof. reflexivity. Qed.

(** * C05 *)
Theorem c05_app_value_round_trip : forall v rest, writable v -> (forall n, v <> VInt n) ->
  exists bs, writes v bs /\ reads (bs ++ rest) (as_read v) rest.
Proof. exact app_round. Qed.
Print Assumptions c05_app_value_round_trip.
Example c05_ex : writable (VString [72; 105]) /\ writes (VString [72; 105]) [115; 0; 72; 105]
  /\ reads [115; 0; 72; 105; 9] (VString [72; 105]) [9].
Proof.
  repeat split; try (repeat constructor; unfold is_byte; cbn; discriminate || reflexivity).
  eexists. split; [reflexivity|]. split; reflexivity.
Qed.

(** * C06: false, exactly on 128..255 and 32768..65535 *)
Theorem c06_int_round_trip_refuted : exists n, in_i32 n /\
  exists bs, writes (VInt n) bs /\ reads bs (VInt (-56)) [] /\ n <> -56.
Proof.
  exists 200. split; [unfold in_i32; split; [discriminate|reflexivity]|].
  eexists. split; [reflexivity|]. split; [|discriminate].
  eexists. split; [reflexivity|]. split; reflexivity.
Qed.
Print Assumptions c06_int_round_trip_refuted.
Theorem c06_int_round_trip_exact_partial : forall n rest, in_i32 n ->
  (exists bs, writes (VInt n) bs /\ reads (bs ++ rest) (VInt n) rest)
  <-> ~ (128 <= n < 256 \/ 32768 <= n < 65536).
Proof. exact int_round_iff. Qed.
Print Assumptions c06_int_round_trip_exact_partial.
Example c06_ex : in_i32 (-70000) /\ writes (VInt (-70000)) [52; 255; 254; 238; 144].
Proof. split; [unfold in_i32; split; [discriminate|reflexivity]|reflexivity]. Qed.

(** * C07: false for doubles (length octet 4) and for many signed integers *)
Theorem c07_written_standard_refuted :
  (exists x, writable (VDouble x) /\ ~ writes (VDouble x) (spec_app (VDouble x)))
  /\ (exists n, writable (VInt n) /\ ~ writes (VInt n) (spec_app (VInt n))).
Proof.
  split.
  - exists 0. split; [split; [discriminate|reflexivity]|]. discriminate.
  - exists (-1). split; [split; [discriminate|reflexivity]|]. discriminate.
Qed.
Print Assumptions c07_written_standard_refuted.
Theorem c07_written_standard_exact_partial : forall v, writable v ->
  (writes v (spec_app v) <-> written_standard v).
Proof. exact written_iff. Qed.
Print Assumptions c07_written_standard_exact_partial.
Example c07_ex : writable (VReal 1120403456) /\ writes (VReal 1120403456) [68; 66; 200; 0; 0].
Proof. split; [split; [discriminate|reflexivity]|reflexivity]. Qed.

(** * C08: false for dates (90 years late) and 3-octet negative integers *)
Theorem c08_conforming_read_refuted :
  (exists d w, valid_date d /\ reads (spec_app (VDate d)) (VDate w) [] /\ w <> d)
  /\ (exists n m, in_i32 n /\ reads (spec_app (VInt n)) (VInt m) [] /\ m <> n).
Proof.
  split.
  - exists (mkDate 2026 11 16 1). eexists. split; [repeat split; try (right; split; discriminate || reflexivity); discriminate|].
    split; [rewrite <- (app_nil_r (spec_app _)); apply date_read; repeat split; try (right; split; discriminate || reflexivity); discriminate|].
    discriminate.
  - exists (-70000), (16777216 - 70000). split; [split; discriminate || reflexivity|]. split; [|discriminate].
    eexists. split; [reflexivity|]. split; reflexivity.
Qed.
Print Assumptions c08_conforming_read_refuted.
Theorem c08_conforming_read_partial : forall v rest, readable v -> reads (spec_app v ++ rest) (as_read v) rest.
Proof. exact app_conforming. Qed.
Print Assumptions c08_conforming_read_partial.
(** what the excluded values are read as *)
Theorem c08_dates_exact_partial : forall d rest, valid_date d ->
  reads (spec_app (VDate d) ++ rest)
    (VDate (mkDate ((if d_year d =? 255 then 2155 else d_year d) + 90) (d_month d) (d_day d) (d_dow d))) rest.
Proof. exact date_read. Qed.
Print Assumptions c08_dates_exact_partial.
Theorem c08_three_octet_negatives_exact_partial : forall n rest, -8388608 <= n < -32768 ->
  reads (spec_app (VInt n) ++ rest) (VInt (n + 16777216)) rest.
Proof. exact int3_negative. Qed.
Print Assumptions c08_three_octet_negatives_exact_partial.
Example c08_ex : readable (VTime (mkTime 13 30 15 990)) /\ spec_app (VTime (mkTime 13 30 15 990)) = [180; 13; 30; 15; 99].
Proof.
  split; [|reflexivity]. repeat split; try discriminate. exists 99. split; [split; discriminate || reflexivity|reflexivity].
Qed.

(** * C09: false *)
Theorem c09_unsupported_refused_refuted :
  (forall w rest, is_bytes w -> 5 <= zlen w < 2 ^ 32 ->
     reads (spec_tag 0 2 (zlen w) ++ w ++ rest) (VUint 0) (w ++ rest))
  /\ (forall l rest, 120 < zlen l <= 2040 ->
     reads (spec_bits l ++ rest) (VBits (Some (mkBits 0 (zeros 15)))) rest)
  /\ (forall m d w rest, is_byte m -> is_byte d -> is_byte w ->
     reads (spec_app (VDate (mkDate 255 m d w)) ++ rest) (VDate (mkDate 2245 m d w)) rest).
Proof.
  split; [exact long_unsigned|]. split; [exact long_bits|].
  intros m d w rest Hm Hd Hw. exact (date_read (mkDate 255 m d w) rest (conj (or_introl eq_refl) (conj Hm (conj Hd Hw)))).
Qed.
Print Assumptions c09_unsupported_refused_refuted.
Example c09_ex : reads [37; 5; 1; 0; 0; 0; 0] (VUint 0) [1; 0; 0; 0; 0].
Proof. eexists. split; [reflexivity|]. split; reflexivity. Qed.
(** signed integers and enumerations of more than four octets are read as 0 as well *)
Theorem c09_long_integers_refuted : forall num w rest, num = 3 \/ num = 9 -> is_bytes w -> 5 <= zlen w < 2 ^ 32 ->
  reads (spec_tag 0 num (zlen w) ++ w ++ rest) (if num =? 3 then VInt 0 else VUint 0) (w ++ rest).
Proof. exact long_integers. Qed.
Print Assumptions c09_long_integers_refuted.
Example c09_long_integers_ex : reads [149; 5; 1; 0; 0; 0; 7; 0] (VUint 0) [1; 0; 0; 0; 7; 0].
Proof. eexists. split; [reflexivity|]. split; reflexivity. Qed.
(** what is refused: other character sets and tags above 12 *)
Theorem c09_unsupported_refused_partial :
  (forall c w rest, is_byte c -> c <> 0 -> c <> 4 -> 0 <= zlen w < 2 ^ 32 - 1 ->
    exists d, dec_AppData (newDecoder (spec_tag 0 7 (zlen w + 1) ++ c :: w ++ rest))
              = Val (VString [], Some (EUnsupportedString c)) d)
  /\ (forall num w rest, 13 <= num < 256 -> 0 <= zlen w < 2 ^ 32 ->
    exists d, dec_AppData (newDecoder (spec_tag 0 num (zlen w) ++ w ++ rest))
              = Val (VNil, Some (EUnsupportedTag num)) d).
Proof. exact (conj charset_refused tag_refused). Qed.
Print Assumptions c09_unsupported_refused_partial.
Example c09_refused_ex : exists d, dec_AppData (newDecoder [114; 3; 65]) = Val (VString [], Some (EUnsupportedString 3)) d.
Proof. eexists. reflexivity. Qed.

(** * C10 *)
Theorem c10_bit_positions : forall l rest, zlen l <= 120 ->
  exists b, reads (spec_bits l ++ rest) (VBits (Some b)) rest /\ bs_GetValue b = ROk l /\ bs_used b = zlen l.
Proof. exact bits_positions. Qed.
Print Assumptions c10_bit_positions.
Example c10_ex : spec_bits [true; false; true; false; false; false; false; false; true] = [131; 7; 160; 128].
Proof. reflexivity. Qed.

(** * C11: false for dates and times, and for strings cut inside the header *)
Theorem c11_truncation_reported_refuted :
  (exists d, dec_AppData (newDecoder [180; 13]) = Val (VTime (mkTime 13 0 0 0), None) d /\ derr d = None)
  /\ (exists d, dec_AppData (newDecoder [164; 126; 11]) = Val (VDate (mkDate 2116 11 0 0), None) d /\ derr d = None)
  /\ (exists l suf, readable (VString l) /\ spec_app (VString l) = [117] ++ suf /\ dec_AppData (newDecoder [117]) = Panic).
Proof.
  split; [eexists; split; reflexivity|]. split; [eexists; split; reflexivity|].
  exists [65; 66; 67; 68], [5; 0; 65; 66; 67; 68]. split; [|split; reflexivity].
  repeat constructor; unfold is_byte; try discriminate; try reflexivity.
Qed.
Print Assumptions c11_truncation_reported_refuted.
(** exactly which cuts are reported; of the others, strings crash and dates and
    times are read as if the missing octets were zero *)
Theorem c11_truncation_exact_partial :
  (forall v pre suf, conforming v -> spec_app v = pre ++ suf -> suf <> [] ->
    (reported (dec_AppData (newDecoder pre)) <-> trunc_reports v pre)
    /\ (~ trunc_reports v pre ->
        match v with
        | VString _ => dec_AppData (newDecoder pre) = Panic
        | _ => exists w, reads pre w [] /\ reads (pre ++ repeat 0 (length suf)) w []
        end))
  /\ (forall l pre suf, zlen l < 2 ^ 32 -> spec_bits l = pre ++ suf -> suf <> [] ->
     reported (dec_AppData (newDecoder pre))).
Proof. exact truncation_exact. Qed.
Print Assumptions c11_truncation_exact_partial.
Example c11_ex : conforming (VUint 70000) /\ spec_app (VUint 70000) = [35; 1] ++ [17; 112]
  /\ conforming (VInt (-40000)) /\ spec_app (VInt (-40000)) = [51; 255] ++ [99; 192].
Proof. repeat split; discriminate || reflexivity. Qed.

(** * C12: false; exactly which inputs crash *)
Theorem c12_value_never_crashes_refuted :
  dec_AppData (newDecoder [112]) = Panic /\ dec_AppData (newDecoder [178; 1; 2]) = Panic.
Proof. split; reflexivity. Qed.
Print Assumptions c12_value_never_crashes_refuted.
Theorem c12_value_crash_exact_partial : forall bs, is_bytes bs ->
  (dec_AppData (newDecoder bs) = Panic <-> value_panics bs).
Proof. exact value_panic_iff. Qed.
Print Assumptions c12_value_crash_exact_partial.
Theorem c12_value_terminates : forall d, dec_AppData d <> Fuel.
Proof. exact value_no_fuel. Qed.
Print Assumptions c12_value_terminates.
Example c12_ex : value_panics [112; 4] /\ ~ value_panics [113; 0] /\ ~ value_panics [180].
Proof.
  split; [|split].
  - left. repeat split. right. reflexivity.
  - intros [(_ & H & _)|(H & _)]; discriminate.
  - intros [(H & _)|(_ & [_ H] & _)]; [discriminate|]. apply H. reflexivity.
Qed.

(** * C59 *)
Theorem c59_bit_get_set : forall n v b,
  0 <= n < zlen (bs_value b) * 8 -> zlen (bs_value b) <= 15 -> 0 <= bs_used b <= 120 ->
  exists b', bs_SetBit n v b = ROk b'
  /\ bs_Bit n b' = ROk v
  /\ (forall m, 0 <= m < 256 -> m <> n -> bs_Bit m b' = bs_Bit m b)
  /\ bs_used b' = Z.max (bs_used b) (n + 1)
  /\ zlen (bs_value b') = zlen (bs_value b).
Proof. exact setbit_laws. Qed.
Print Assumptions c59_bit_get_set.
Example c59_ex : bs_SetBit 9 true (mkBits 4 [15; 0]) = ROk (mkBits 10 [15; 2]).
Proof. reflexivity. Qed.
