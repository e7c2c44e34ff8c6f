(** Application values: written octets and reading back. *)
From Coq Require Import Lia ZifyBool.
From Verif Require Import ModelDec SpecWire ProofsWire ProofsTag.
Ltac Zify.zify_post_hook ::= Z.div_mod_to_equations.

Lemma enc_app_tag : forall id len b, 0 <= id < 256 -> 0 <= len < 2 ^ 32 ->
  enc_tag (appTag id len) (mkEnc b None) = mkEnc (b ++ spec_tag 0 id len) None.
Proof. intros. unfold appTag. rewrite enc_tag_spec by assumption. reflexivity. Qed.
Lemma enc_ctx_tag : forall id len b, 0 <= id < 256 -> 0 <= len < 2 ^ 32 ->
  enc_tag (ctxTag id len) (mkEnc b None) = mkEnc (b ++ spec_tag 1 id len) None.
Proof. intros. unfold ctxTag. rewrite enc_tag_spec by assumption. reflexivity. Qed.

Lemma u32_small : forall v, 0 <= v < 2 ^ 32 -> u32 v = v.
Proof. intros. unfold u32. apply Z.mod_small. exact H. Qed.
Lemma u32_range : forall v, 0 <= u32 v < 2 ^ 32.
Proof. intros. unfold u32. apply Z.mod_pos_bound. lia. Qed.

Lemma enc_uint_gen : forall id v b, 0 <= id < 256 -> 0 <= v < 2 ^ 32 ->
  enc_unsigned v (enc_tag (appTag id (u32 (valueLength v))) (mkEnc b None))
  = mkEnc (b ++ spec_tag 0 id (usize v) ++ spec_unsigned v) None.
Proof.
  intros id v b Hid Hv. rewrite valueLength_usize by assumption.
  pose proof (usize_bound v Hv). rewrite u32_small by lia.
  rewrite enc_app_tag by lia. rewrite enc_unsigned_spec by assumption.
  rewrite <- app_assoc. reflexivity.
Qed.
Lemma be64_octets : forall x, be64 x = octets 8 x.
Proof.
  intros. unfold be64. rewrite !be32_octets. unfold octets.
  change (Z.of_nat 0) with 0; change (Z.of_nat 1) with 1; change (Z.of_nat 2) with 2; change (Z.of_nat 3) with 3;
  change (Z.of_nat 4) with 4; change (Z.of_nat 5) with 5; change (Z.of_nat 6) with 6; change (Z.of_nat 7) with 7.
  cbn [app]. rewrite !Z.div_div by (simpl; lia). reflexivity.
Qed.

Lemma enc_app_written : forall v b, writable v ->
  enc_AppData v false (mkEnc b None) = ROk (mkEnc (b ++ app_written v) None).
Proof.
  intros v b Hw. destruct v; simpl in Hw; try contradiction; cbn [enc_AppData app_written spec_app].
  - rewrite enc_app_tag by (unfold tagNull; lia). reflexivity.
  - unfold enc_boolean. rewrite enc_app_tag by (unfold tagBool; destruct b0; lia). reflexivity.
  - rewrite enc_uint_gen by (try assumption; unfold tagUint; lia). reflexivity.
  - cbv zeta. rewrite enc_uint_gen by (try apply u32_range; unfold tagInt; lia). reflexivity.
  - rewrite enc_app_tag by (unfold tagReal, realLen; lia).
    unfold write_u32. rewrite be32_octets, write_ok, <- app_assoc. reflexivity.
  - rewrite enc_app_tag by (unfold tagDouble, realLen; lia).
    rewrite be64_octets, write_ok, <- app_assoc. reflexivity.
  - destruct Hw as [Hb Hl]. assert (0 <= zlen l) by (unfold zlen; lia).
    rewrite u32_small by lia. rewrite enc_app_tag by (unfold tagCharacterString; lia).
    unfold enc_string. rewrite write_u8_ok by lia. rewrite write_ok, <- !app_assoc. reflexivity.
  - unfold enc_enumerated. rewrite enc_uint_gen by (try assumption; unfold tagEnumerated; lia). reflexivity.
  - rewrite enc_app_tag by (unfold tagObjectID, objectIDLen; lia).
    rewrite enc_objectId_spec by assumption. rewrite <- app_assoc. reflexivity.
Qed.

(** ** reading values *)
Ltac unfold_tags := unfold tagNull, tagBool, tagUint, tagInt, tagReal, tagDouble, tagOctetString,
  tagCharacterString, tagBitString, tagEnumerated, tagDate, tagTime, tagObjectID.

Lemma tag_app : forall id len body rest p, 0 <= id < 256 -> 0 <= len < 2 ^ 32 ->
  dec_AppData (mkDec ((spec_tag 0 id len ++ body) ++ rest) p None)
  = AppDataOfTag id len (mkDec (body ++ rest) (Some (last (spec_tag 0 id len) 0)) None).
Proof.
  intros. rewrite <- app_assoc. unfold dec_AppData. rewrite tag_round by lia. reflexivity.
Qed.
Lemma spec_unsigned_ne : forall v, 0 <= v < 2 ^ 32 -> spec_unsigned v <> [].
Proof.
  intros v Hv. unfold spec_unsigned. pose proof (usize_bound v Hv).
  destruct (Z.to_nat (usize v)) eqn:E; [lia|]. simpl. congruence.
Qed.

Lemma dec_signed_spec : forall n rest p, in_i32 n -> ~ (-8388608 <= n < -32768) ->
  dec_signed (ssize n) (mkDec (spec_signed n ++ rest) p None)
  = (n, mkDec rest (Some (last (spec_signed n) 0)) None).
Proof.
  intros n rest p Hn H3. unfold spec_signed. red in Hn.
  assert (Hs : 1 <= ssize n <= 4) by (destruct (ssize_cases n Hn) as [[? ->]|[[? [? ->]]|[[? [? ->]]|[? ->]]]]; lia).
  rewrite <- (Z2Nat.id (ssize n)) at 1 by lia.
  rewrite dec_signed_octets.
  2: lia.
  2: rewrite Z2Nat.id by lia; apply Z.mod_pos_bound; apply Z.pow_pos_nonneg; lia.
  f_equal.
  destruct (ssize_cases n Hn) as [[H ->]|[[? [H ->]]|[[? [H ->]]|[H ->]]]];
  [change (Z.to_nat 1) with 1%nat|change (Z.to_nat 2) with 2%nat|change (Z.to_nat 3) with 3%nat|change (Z.to_nat 4) with 4%nat];
  cbn [read_signed_as]; unfold i8, i16, i32.
  - change (256 ^ 1) with 256. lia.
  - change (256 ^ 2) with 65536. lia.
  - change (256 ^ 3) with 16777216. lia.
  - change (256 ^ 4) with 4294967296. lia.
Qed.

Lemma ssize_bound : forall n, in_i32 n -> 1 <= ssize n <= 4.
Proof. intros n Hn. destruct (ssize_cases n Hn) as [[? ->]|[[? [? ->]]|[[? [? ->]]|[? ->]]]]; lia. Qed.
Lemma spec_signed_ne : forall n, in_i32 n -> spec_signed n <> [].
Proof.
  intros n Hn. unfold spec_signed. pose proof (ssize_bound n Hn).
  destruct (Z.to_nat (ssize n)) eqn:E; [lia|]. simpl. congruence.
Qed.
Lemma octets_ne : forall n v, n <> O -> octets n v <> [].
Proof. intros [|n] v H; [congruence|]. simpl. congruence. Qed.

Lemma dec_app_readable : forall v rest p, readable v ->
  dec_AppData (mkDec (spec_app v ++ rest) p None)
  = Val (as_read v, None) (mkDec rest (Some (last (spec_app v) 0)) None).
Proof.
  intros v rest p Hr.
  destruct v; simpl in Hr; try contradiction; cbn [spec_app as_read].
  - reflexivity.
  - destruct b; reflexivity.
  - pose proof (usize_bound n Hr). rewrite tag_app by lia.
    unfold AppDataOfTag; unfold_tags; cbn [Z.eqb Pos.eqb].
    rewrite dec_unsigned_spec by assumption.
    rewrite last_app2 by (apply spec_unsigned_ne; assumption). reflexivity.
  - destruct Hr as [Hn H3]. pose proof (ssize_bound n Hn). rewrite tag_app by lia.
    unfold AppDataOfTag; unfold_tags; cbn [Z.eqb Pos.eqb].
    rewrite dec_signed_spec by assumption.
    rewrite last_app2 by (apply spec_signed_ne; assumption). reflexivity.
  - rewrite tag_app by lia. unfold AppDataOfTag; unfold_tags; cbn [Z.eqb Pos.eqb].
    rewrite decode_u_octets by (try assumption; congruence).
    rewrite last_app2 by (apply octets_ne; congruence). reflexivity.
  - rewrite tag_app by lia. unfold AppDataOfTag; unfold_tags; cbn [Z.eqb Pos.eqb].
    rewrite decode_u_octets by (try assumption; congruence).
    rewrite last_app2 by (apply octets_ne; congruence). reflexivity.
  - destruct Hr as [Hb Hl]. assert (0 <= zlen l) by (unfold zlen; lia). rewrite tag_app by lia.
    unfold AppDataOfTag; unfold_tags; cbn [Z.eqb Pos.eqb]. unfold dec_octetstring.
    replace (Z.to_nat (zlen l)) with (length l) by (unfold zlen; lia).
    rewrite decode_n_ok0. destruct l as [|x l].
    + rewrite app_nil_r. reflexivity.
    + rewrite last_app2 by congruence. reflexivity.
  - destruct Hr as [Hb Hl]. assert (0 <= zlen l) by (unfold zlen; lia). rewrite tag_app by lia.
    unfold AppDataOfTag; unfold_tags; cbn [Z.eqb Pos.eqb]. unfold dec_string. cbn [app].
    rewrite decode_u1_ok. cbn [Z.eqb orb].
    replace (zlen l + 1 - 1) with (zlen l) by lia.
    replace (zlen l <? 0) with false by lia.
    replace (Z.to_nat (zlen l)) with (length l) by (unfold zlen; lia).
    rewrite decode_n_ok0. cbn [derr obind fst snd].
    rewrite last_app2 by congruence.
    destruct l as [|x l]; reflexivity.
  - pose proof (usize_bound n Hr). rewrite tag_app by lia.
    unfold AppDataOfTag; unfold_tags; cbn [Z.eqb Pos.eqb]. unfold dec_enumerated.
    rewrite dec_unsigned_spec by assumption.
    rewrite last_app2 by (apply spec_unsigned_ne; assumption). reflexivity.
  - rewrite tag_app by lia. unfold AppDataOfTag; unfold_tags; cbn [Z.eqb Pos.eqb].
    destruct t as [th tm ts tc]. destruct Hr as (Hh & Hm & Hs & c & Hc & E).
    cbn [t_hour t_min t_sec t_milli] in *. subst tc.
    unfold dec_time. cbn. rewrite Z.div_mul by lia. reflexivity.
  - rewrite tag_app by lia. unfold AppDataOfTag; unfold_tags; cbn [Z.eqb Pos.eqb].
    rewrite dec_objectId_spec by assumption.
    rewrite last_app2 by (apply octets_ne; congruence). reflexivity.
Qed.

(** doubles as the library writes them *)
Lemma dec_double_written : forall x rest p, 0 <= x < 2 ^ 64 ->
  dec_AppData (mkDec (app_written (VDouble x) ++ rest) p None)
  = Val (VDouble x, None) (mkDec rest (Some (last (app_written (VDouble x)) 0)) None).
Proof.
  intros. cbn [app_written]. rewrite tag_app by lia. unfold AppDataOfTag; unfold_tags; cbn [Z.eqb Pos.eqb].
  rewrite decode_u_octets by (try assumption; congruence).
  rewrite last_app2 by (apply octets_ne; congruence). reflexivity.
Qed.
(** signed integers as the library writes them: what is read back *)
Definition int_reread (n : Z) : Z := read_signed_as (Z.to_nat (usize (u32 n))) (u32 n).
Lemma dec_int_written : forall n rest p, in_i32 n ->
  dec_AppData (mkDec (app_written (VInt n) ++ rest) p None)
  = Val (VInt (int_reread n), None) (mkDec rest (Some (last (app_written (VInt n)) 0)) None).
Proof.
  intros n rest p Hn. cbn [app_written]. pose proof (u32_range n) as Hu.
  pose proof (usize_bound _ Hu). rewrite tag_app by lia.
  unfold AppDataOfTag; unfold_tags; cbn [Z.eqb Pos.eqb].
  unfold spec_unsigned. rewrite <- (Z2Nat.id (usize (u32 n))) at 1 by lia.
  rewrite dec_signed_octets.
  2: lia.
  2: rewrite Z2Nat.id by lia; apply usize_fits; assumption.
  rewrite last_app2 by (apply octets_ne; lia). reflexivity.
Qed.
Lemma u32_cases : forall n, in_i32 n -> (0 <= n /\ u32 n = n) \/ (n < 0 /\ u32 n = n + 4294967296).
Proof. intros n Hn. red in Hn. unfold u32. lia. Qed.
Lemma int_reread_iff : forall n, in_i32 n ->
  (int_reread n = n <-> ~ (128 <= n < 256 \/ 32768 <= n < 65536)).
Proof.
  intros n Hn. unfold int_reread. pose proof (u32_range n) as Hu.
  pose proof (u32_cases n Hn) as Hc. red in Hn.
  destruct (usize_cases (u32 n) Hu) as [[H ->]|[[H ->]|[[H ->]|[H ->]]]];
  destruct Hc as [[Hc1 Hc2]|[Hc1 Hc2]]; rewrite Hc2 in *;
  try change (Z.to_nat 1) with 1%nat; try change (Z.to_nat 2) with 2%nat;
  try change (Z.to_nat 3) with 3%nat; try change (Z.to_nat 4) with 4%nat;
  cbn [read_signed_as]; unfold i8, i16, i32; lia.
Qed.

(** when the signed octets written are the standard's *)
Lemma int_written_iff : forall n, in_i32 n ->
  (app_written (VInt n) = spec_app (VInt n) <->
   0 <= n < 128 \/ 256 <= n < 32768 \/ 65536 <= n < 8388608 \/ 16777216 <= n \/ n < -8388608).
Proof.
  intros n Hn. cbn [app_written spec_app]. pose proof (u32_range n) as Hu.
  pose proof (u32_cases n Hn) as Hc. red in Hn. unfold spec_unsigned, spec_signed.
  assert (Ht : forall a b x y, 1 <= a <= 4 -> 1 <= b <= 4 ->
     spec_tag 0 3 a ++ octets (Z.to_nat a) x = spec_tag 0 3 b ++ octets (Z.to_nat b) y -> a = b).
  { intros a b x y Ha Hb E. unfold spec_tag in E. cbn [app] in E.
    replace (a <? 5) with true in E by lia. replace (b <? 5) with true in E by lia.
    apply (f_equal (hd 0)) in E. cbn [app hd] in E. change (3 <? 15) with true in E. lia. }
  pose proof (usize_bound _ Hu). pose proof (ssize_bound n Hn).
  split.
  - intro E. apply Ht in E; [|assumption|assumption]. clear Ht.
    destruct (usize_cases (u32 n) Hu) as [[H1 E1]|[[H1 E1]|[[H1 E1]|[H1 E1]]]];
    destruct (ssize_cases n Hn) as [[H2 E2]|[[? [H2 E2]]|[[? [H2 E2]]|[H2 E2]]]];
    rewrite E1, E2 in E; try discriminate; lia.
  - intro C. assert (E : usize (u32 n) = ssize n /\ u32 n = n mod 256 ^ ssize n).
    { destruct (usize_cases (u32 n) Hu) as [[H1 E1]|[[H1 E1]|[[H1 E1]|[H1 E1]]]];
      destruct (ssize_cases n Hn) as [[H2 E2]|[[? [H2 E2]]|[[? [H2 E2]]|[H2 E2]]]];
      rewrite E1, E2;
      [change (256^1) with 256|change (256^2) with 65536|change (256^3) with 16777216|change (256^4) with 4294967296|
       change (256^1) with 256|change (256^2) with 65536|change (256^3) with 16777216|change (256^4) with 4294967296|
       change (256^1) with 256|change (256^2) with 65536|change (256^3) with 16777216|change (256^4) with 4294967296|
       change (256^1) with 256|change (256^2) with 65536|change (256^3) with 16777216|change (256^4) with 4294967296];
      lia. }
    destruct E as [E1 E2]. rewrite E1, <- E2. reflexivity.
Qed.
