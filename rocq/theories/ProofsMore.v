(** Proofs about answers to ReadPropertyMultiple and about date patterns. *)
From Coq Require Import Lia ZifyBool ZifyNat.
From Verif Require Import ModelClient ModelMore SpecWire SpecCodec SpecLayers SpecServices SpecObs SpecMore
  ProofsWire ProofsTag ProofsApp ProofsBits ProofsTrunc ProofsCodec ProofsLayers ProofsLayerProps ProofsServices ProofsMulti ProofsTerm ProofsServiceProps.
Ltac Zify.zify_post_hook ::= Z.div_mod_to_equations.

Lemma opening_enc : forall n b, 0 <= n < 255 -> openingTag n (mkEnc b None) = mkEnc (b ++ spec_open n) None.
Proof. intros n b H. apply open_tag_enc. lia. Qed.
Lemma closing_enc : forall n b, 0 <= n < 255 -> closingTag n (mkEnc b None) = mkEnc (b ++ spec_close n) None.
Proof. intros n b H. apply open_tag_enc. lia. Qed.
Lemma bin_value_raw : forall v, v <> VNil -> bin_value v = ROk (raw v).
Proof.
  destruct v; intro H; try (exfalso; apply H; reflexivity); cbn [bin_value raw]; rewrite ?be32_octets, ?be64_octets, ?be16_octets; reflexivity.
Qed.
Lemma write_value_raw : forall v l b, raw v = Some l -> write_value v (mkEnc b None) = ROk (mkEnc (b ++ l) None).
Proof.
  intros v l b H. unfold write_value. cbn [eerr]. rewrite bin_value_raw by (intros ->; discriminate H). rewrite H. reflexivity.
Qed.
Lemma write_value_bad : forall v b, v <> VNil -> raw v = None -> write_value v (mkEnc b None) = ROk (mkEnc b (Some EInvalidType)).
Proof. intros v b Hn H. unfold write_value. cbn [eerr]. rewrite bin_value_raw by assumption. rewrite H. reflexivity. Qed.
Lemma write_value_fail : forall v e, failing e -> write_value v e = ROk e.
Proof. intros v [b [x|]] H; [reflexivity|exfalso; apply H; reflexivity]. Qed.

Lemma props_raw : forall ps b, Forall (fun p => in_u32 (pr_type p) /\ in_u32 (pr_index p)) ps ->
  Forall (fun v => raw v <> None) (map pr_data ps) ->
  propertiesWithData ps (mkEnc b None) = ROk (mkEnc (b ++ flat_map doubled ps) None).
Proof.
  induction ps as [|p ps IH]; intros b H V; cbn [propertiesWithData flat_map map] in *; [rewrite app_nil_r; reflexivity|].
  inversion_clear H. inversion_clear V. destruct H0 as (Ht & Hi).
  destruct (raw (pr_data p)) as [l|] eqn:E; [|exfalso; apply H; reflexivity].
  unfold contextEnumerated. rewrite enc_ctx_unsigned_spec by (assumption || lia).
  rewrite enc_index by (assumption || lia). rewrite opening_enc by lia.
  rewrite (write_value_raw _ _ _ E). cbn [rbind]. rewrite closing_enc by lia.
  rewrite (write_value_raw _ _ _ E). cbn [rbind]. rewrite IH by assumption.
  unfold doubled, octets_of. rewrite E. rewrite <- !app_assoc. reflexivity.
Qed.
Lemma props_fail : forall ps e, failing e -> propertiesWithData ps e = ROk e.
Proof.
  induction ps as [|p ps IH]; intros e H; [reflexivity|]. cbn [propertiesWithData].
  unfold contextEnumerated. rewrite (ctx_unsigned_fail 2 (pr_type p) e H).
  replace (if negb (pr_index p =? ArrayAll) then contextUnsigned 3 (pr_index p) e else e) with e
    by (destruct (negb _); [symmetry; apply ctx_unsigned_fail; assumption|reflexivity]).
  rewrite (proj1 (open_fail 4 e H)). rewrite write_value_fail by assumption. cbn [rbind].
  rewrite (proj2 (open_fail 4 e H)). rewrite write_value_fail by assumption. cbn [rbind]. apply IH. assumption.
Qed.
Lemma props_bad : forall ps b, Forall (fun p => in_u32 (pr_type p) /\ in_u32 (pr_index p)) ps ->
  ~ In VNil (map pr_data ps) -> Exists (fun v => raw v = None) (map pr_data ps) ->
  exists b', propertiesWithData ps (mkEnc b None) = ROk (mkEnc b' (Some EInvalidType)).
Proof.
  induction ps as [|p ps IH]; intros b H N X; cbn [propertiesWithData map] in *; [inversion X|].
  inversion_clear H. destruct H0 as (Ht & Hi). cbn [In] in N.
  unfold contextEnumerated. rewrite enc_ctx_unsigned_spec by (assumption || lia).
  rewrite enc_index by (assumption || lia). rewrite opening_enc by lia.
  destruct (raw (pr_data p)) as [l|] eqn:E.
  - rewrite (write_value_raw _ _ _ E). cbn [rbind]. rewrite closing_enc by lia.
    rewrite (write_value_raw _ _ _ E). cbn [rbind]. apply IH; [assumption|intuition|].
    inversion_clear X; [congruence|assumption].
  - rewrite write_value_bad by (auto || (intro; apply N; auto)). cbn [rbind].
    match goal with |- context [closingTag 4 ?e] => assert (F : failing e) by discriminate; rewrite (proj2 (open_fail 4 e F)) end.
    rewrite write_value_fail by assumption. cbn [rbind]. rewrite props_fail by assumption. eexists. reflexivity.
Qed.

Lemma objs_raw : forall os b, Forall sendable os -> Forall (fun v => raw v <> None) (values_of os) ->
  enc_objectsWithData os (mkEnc b None)
  = ROk (mkEnc (b ++ flat_map (fun o => spec_ctx_oid 0 (o_id o) ++ spec_open 1 ++ flat_map doubled (o_props o) ++ spec_close 1) os) None).
Proof.
  induction os as [|o os IH]; intros b H V; cbn [enc_objectsWithData flat_map values_of] in *; [rewrite app_nil_r; reflexivity|].
  inversion_clear H. destruct H0 as (Ho & Hp). apply Forall_app in V. destruct V as (V1 & V2).
  rewrite enc_ctx_oid by (assumption || lia). rewrite opening_enc by lia. rewrite props_raw by assumption. cbn [rbind].
  rewrite closing_enc by lia. rewrite IH by assumption. rewrite <- !app_assoc. reflexivity.
Qed.
Lemma ctx_oid_fail : forall n o e, failing e -> contextObjectID n o e = e.
Proof. intros n o e H. unfold contextObjectID. rewrite enc_tag_fail by assumption. unfold enc_objectId, write_u32. apply w_fail. assumption. Qed.
Lemma objs_fail : forall os e, failing e -> enc_objectsWithData os e = ROk e.
Proof.
  induction os as [|o os IH]; intros e H; [reflexivity|]. cbn [enc_objectsWithData].
  rewrite ctx_oid_fail by assumption. rewrite (proj1 (open_fail 1 e H)). rewrite props_fail by assumption. cbn [rbind].
  rewrite (proj2 (open_fail 1 e H)). apply IH. assumption.
Qed.
Lemma objs_bad : forall os b, Forall sendable os -> ~ In VNil (values_of os) -> Exists (fun v => raw v = None) (values_of os) ->
  exists b', enc_objectsWithData os (mkEnc b None) = ROk (mkEnc b' (Some EInvalidType)).
Proof.
  induction os as [|o os IH]; intros b H N X; cbn [enc_objectsWithData flat_map values_of] in *; [inversion X|].
  inversion_clear H. destruct H0 as (Ho & Hp). rewrite in_app_iff in N.
  rewrite enc_ctx_oid by (assumption || lia). rewrite opening_enc by lia.
  destruct (Exists_dec (fun v => raw v = None) (map pr_data (o_props o))) as [Y|Y].
  { intro v. destruct (raw v); [right; discriminate|left; reflexivity]. }
  - destruct (props_bad (o_props o) ((b ++ spec_ctx_oid 0 (o_id o)) ++ spec_open 1) Hp ltac:(auto) Y) as (b' & E). rewrite E. cbn [rbind].
    match goal with |- context [closingTag 1 ?e] => assert (F : failing e) by discriminate; rewrite (proj2 (open_fail 1 e F)) end.
    rewrite objs_fail by assumption. eexists. reflexivity.
  - rewrite props_raw; [|assumption|apply Forall_Exists_neg in Y; exact Y]. cbn [rbind].
    rewrite closing_enc by lia. apply IH; [assumption|auto|]. apply Exists_app in X. tauto.
Qed.

Lemma ack_header : forall inv b, is_byte inv ->
  fst (enc_APDU (mkApdu pduComplexAck false false false 0 0 inv 0 0 svcReadPropMultiple 0 0 0 []) (mkEnc b None))
  = mkEnc (b ++ spec_complex_ack inv 14) None.
Proof.
  intros inv b H. unfold enc_APDU. cbn -[write_u8]. unfold svcReadPropMultiple. rewrite !write_u8_ok by (unfold is_byte in *; lia). cbn [fst]. rewrite <- !app_assoc. reflexivity.
Qed.
Lemma multi_ack_octets : forall inv os, is_byte inv -> Forall sendable os -> Forall (fun v => raw v <> None) (values_of os) ->
  enc_ReadMultiplePropertyAck inv (mkMPD os) newEncoder = ROk (mkEnc (doubled_answer inv os) None, None).
Proof.
  intros inv os Hi H V. unfold enc_ReadMultiplePropertyAck, newEncoder. cbv zeta. rewrite ack_header by assumption. cbn [md_objects].
  rewrite objs_raw by assumption. reflexivity.
Qed.
Lemma multi_ack_refused : forall inv os, is_byte inv -> Forall sendable os -> ~ In VNil (values_of os) ->
  Exists (fun v => raw v = None) (values_of os) ->
  exists bs, enc_ReadMultiplePropertyAck inv (mkMPD os) newEncoder = ROk (mkEnc bs (Some EInvalidType), Some EInvalidType).
Proof.
  intros inv os Hi H N X. unfold enc_ReadMultiplePropertyAck, newEncoder. cbv zeta. rewrite ack_header by assumption. cbn [md_objects].
  destruct (objs_bad os ([] ++ spec_complex_ack inv 14) H N X) as (b' & E). rewrite E. eexists. reflexivity.
Qed.

Lemma octets4 : forall n, octets 4 n = [n / 16777216 mod 256; n / 65536 mod 256; n / 256 mod 256; n mod 256].
Proof. intro n. rewrite <- be32_octets. reflexivity. Qed.
(** untagged octets followed by a closing tag never start like the tagged value *)
Lemma untagged : forall v l x y, writable v -> raw v = Some l -> l ++ 79 :: x <> spec_app v ++ y.
Proof.
  intros v l x y Hw E H. assert (L : l = octets_of v) by (unfold octets_of; rewrite E; reflexivity).
  destruct v; try discriminate E; cbn [writable] in Hw; try contradiction; unfold octets_of in L; cbn [raw] in L; subst l; clear E; cbn [spec_app] in H.
  - discriminate H.
  - destruct b; discriminate H.
  - unfold in_u32 in Hw. unfold spec_unsigned in H. rewrite octets4 in H.
    destruct (usize_cases n Hw) as [[? U]|[[? U]|[[? U]|[? U]]]]; rewrite U in H;
      cbn -[Z.div Z.modulo Z.pow] in H; injection H; intros; try lia.
  - unfold in_i32 in Hw. unfold spec_signed in H. rewrite octets4 in H.
    destruct (ssize_cases n Hw) as [[? U]|[[? [? U]]|[[? [? U]]|[? U]]]]; rewrite U in H;
      cbn -[Z.div Z.modulo Z.pow] in H; injection H; intros; try lia.
  - rewrite octets4 in H. cbn -[Z.div Z.modulo Z.pow] in H. injection H; intros; lia.
  - cbn -[Z.div Z.modulo Z.pow] in H. injection H; intros; lia.
  - unfold in_u32 in Hw. unfold spec_unsigned in H. rewrite octets4 in H.
    destruct (usize_cases n Hw) as [[? U]|[[? U]|[[? U]|[? U]]]]; rewrite U in H;
      cbn -[Z.div Z.modulo Z.pow] in H; injection H; intros; try lia.
  - destruct Hw as (Ht & Hi). cbn -[Z.div Z.modulo Z.pow] in H. injection H; intros; lia.
Qed.
Lemma multi_ack_nonstandard : forall inv o os p ps, is_byte inv -> Forall sendable (o :: os) ->
  Forall (fun v => raw v <> None) (values_of (o :: os)) -> o_props o = p :: ps -> writable (pr_data p) ->
  exists bs, enc_ReadMultiplePropertyAck inv (mkMPD (o :: os)) newEncoder = ROk (mkEnc bs None, None)
  /\ bs <> std_answer inv (o :: os).
Proof.
  intros inv o os p ps Hi H V Ep Hw. eexists. split; [apply multi_ack_octets; assumption|]. intro E.
  unfold doubled_answer, std_answer, spec_readmulti_ack in E. apply app_inv_head in E. cbn [map flat_map] in E.
  unfold spec_access in E. cbn [fst snd] in E. rewrite Ep in E. cbn [map flat_map] in E.
  unfold doubled, spec_result in E. cbn [rs_prop rs_index rs_values flat_map spec_sent] in E. rewrite <- !app_assoc in E.
  do 5 apply app_inv_head in E.
  cbn [values_of flat_map] in V. rewrite Ep in V. cbn [map app] in V. inversion_clear V. unfold octets_of in E.
  destruct (raw (pr_data p)) as [l|] eqn:R; [|apply H0; reflexivity].
  change (spec_close 4) with [79] in E. cbn [app] in E. exact (untagged _ _ _ _ Hw R E).
Qed.

Lemma months_exact : forall m, (IsOddMonth m = true <-> std_month m = MOdd) /\ (IsEvenMonth m = true <-> std_month m = MEven).
Proof.
  intro m. unfold IsOddMonth, IsEvenMonth, std_month. destruct (m =? 13) eqn:E1, (m =? 14) eqn:E2; split; split; intro; try discriminate; try reflexivity; lia.
Qed.
Lemma days_exact : forall d, (IsLastDayOfMonth d = true <-> std_day d = DLast)
  /\ (IsOddDayOfMonth d = true <-> std_day d = DLast) /\ (IsEvenDayOfMonth d = true <-> std_day d = DOdd).
Proof.
  intro d. unfold IsLastDayOfMonth, IsOddDayOfMonth, IsEvenDayOfMonth, std_day.
  destruct (d =? 32) eqn:E1, (d =? 33) eqn:E2, (d =? 34); repeat split; intro; try discriminate; try reflexivity; lia.
Qed.
Lemma date_patterns : forall d rest, valid_date d -> exists r, reads (spec_app (VDate d) ++ rest) (VDate r) rest
  /\ (IsOddMonth (d_month r) = true <-> std_month (d_month d) = MOdd)
  /\ (IsEvenMonth (d_month r) = true <-> std_month (d_month d) = MEven)
  /\ (IsLastDayOfMonth (d_day r) = true <-> std_day (d_day d) = DLast)
  /\ (IsOddDayOfMonth (d_day r) = true <-> std_day (d_day d) = DLast)
  /\ (IsEvenDayOfMonth (d_day r) = true <-> std_day (d_day d) = DOdd).
Proof.
  intros d rest H. eexists. split; [apply date_read; exact H|]. cbn [d_month d_day].
  pose proof (months_exact (d_month d)). pose proof (days_exact (d_day d)). tauto.
Qed.
