(** Lemmas about the wire primitives. *)
From Coq Require Import Lia ZifyBool.
From Verif Require Import ModelDec SpecWire.
Ltac Zify.zify_post_hook ::= Z.div_mod_to_equations.

(** ** finite sweeps *)
Definition zrange (n : nat) : list Z := map Z.of_nat (seq 0 n).
Lemma zrange_in : forall n x, 0 <= x < Z.of_nat n -> In x (zrange n).
Proof.
  intros n x H. unfold zrange. apply in_map_iff. exists (Z.to_nat x). split.
  - apply Z2Nat.id; lia.
  - apply in_seq. lia.
Qed.
Lemma sweep1 : forall n (P : Z -> bool), forallb P (zrange n) = true ->
  forall x, 0 <= x < Z.of_nat n -> P x = true.
Proof. intros n P H x Hx. rewrite forallb_forall in H. apply H, zrange_in, Hx. Qed.
Lemma sweep2 : forall n m (P : Z -> Z -> bool),
  forallb (fun x => forallb (P x) (zrange m)) (zrange n) = true ->
  forall x y, 0 <= x < Z.of_nat n -> 0 <= y < Z.of_nat m -> P x y = true.
Proof.
  intros n m P H x y Hx Hy. rewrite forallb_forall in H.
  specialize (H x (zrange_in n x Hx)). rewrite forallb_forall in H. apply H, zrange_in, Hy.
Qed.

(** ** big-endian numbers *)
Lemma be8_octets : forall v, be8 v = octets 1 v.
Proof. intros. unfold be8, octets. simpl Z.of_nat. rewrite Z.pow_0_r, Z.div_1_r. reflexivity. Qed.
Lemma be16_octets : forall v, be16 v = octets 2 v.
Proof. intros. unfold be16, octets. simpl Z.of_nat. rewrite Z.pow_0_r, Z.div_1_r. reflexivity. Qed.
Lemma be32_octets : forall v, be32 v = octets 4 v.
Proof. intros. unfold be32, octets. simpl Z.of_nat. rewrite Z.pow_0_r, Z.div_1_r. reflexivity. Qed.

Lemma octets_length : forall n v, length (octets n v) = n.
Proof. induction n; simpl; intros; auto. Qed.
Lemma octets_bytes : forall n v, is_bytes (octets n v).
Proof.
  induction n; simpl; intros; constructor; [|apply IHn].
  unfold is_byte. apply Z.mod_pos_bound. lia.
Qed.

Lemma be_val_snoc_gen : forall l acc, fold_left (fun a b => a * 256 + b) l acc
  = acc * 256 ^ Z.of_nat (length l) + be_val l.
Proof.
  induction l as [|b l IH]; intros acc.
  - simpl. unfold be_val; simpl. lia.
  - cbn [fold_left length]. rewrite IH.
    change (be_val (b :: l)) with (fold_left (fun a b => a * 256 + b) l (0 * 256 + b)).
    rewrite (IH (0 * 256 + b)).
    rewrite Nat2Z.inj_succ, Z.pow_succ_r by lia. ring.
Qed.
Lemma be_val_cons : forall b l, be_val (b :: l) = b * 256 ^ Z.of_nat (length l) + be_val l.
Proof. intros. unfold be_val at 1. cbn [fold_left]. rewrite be_val_snoc_gen. ring. Qed.
Lemma be_val_app : forall l1 l2, be_val (l1 ++ l2) = be_val l1 * 256 ^ Z.of_nat (length l2) + be_val l2.
Proof. intros. unfold be_val at 1. rewrite fold_left_app. rewrite be_val_snoc_gen. reflexivity. Qed.

Lemma be_val_octets_mod : forall n v, be_val (octets n v) = v mod 256 ^ Z.of_nat n.
Proof.
  induction n; intros v.
  - simpl. rewrite Z.mod_1_r. reflexivity.
  - cbn [octets]. rewrite be_val_cons, octets_length, IHn.
    rewrite Nat2Z.inj_succ, Z.pow_succ_r by lia.
    set (m := 256 ^ Z.of_nat n). assert (0 < m) by (apply Z.pow_pos_nonneg; lia).
    rewrite (Z.mul_comm 256 m). rewrite Z.rem_mul_r by lia. ring.
Qed.
Lemma be_val_octets : forall n v, 0 <= v < 256 ^ Z.of_nat n -> be_val (octets n v) = v.
Proof. intros. rewrite be_val_octets_mod. apply Z.mod_small. assumption. Qed.

Lemma be_val_bound : forall l, is_bytes l -> 0 <= be_val l < 256 ^ Z.of_nat (length l).
Proof.
  induction l; intros H.
  - unfold be_val. simpl. lia.
  - inversion H; subst. rewrite be_val_cons. specialize (IHl H3).
    cbn [length]. rewrite Nat2Z.inj_succ, Z.pow_succ_r by lia.
    unfold is_byte in H2. nia.
Qed.

(** octets of a big-endian value *)
Lemma octets_be_val : forall l, is_bytes l -> octets (length l) (be_val l) = l.
Proof.
  induction l as [|b l IH]; intros H; [reflexivity|].
  inversion H; subst. pose proof (be_val_bound l H3) as HB.
  cbn [length octets]. rewrite be_val_cons.
  set (m := 256 ^ Z.of_nat (length l)) in *.
  f_equal.
  - rewrite Z.add_comm, Z.div_add by lia. rewrite (Z.div_small (be_val l)) by lia.
    unfold is_byte in H2. apply Z.mod_small. lia.
  - rewrite <- (IH H3) at 3. clear IH H H2.
    assert (G : forall k x y, (k <= length l)%nat -> octets k (x * m + y) = octets k y).
    { induction k; intros; [reflexivity|]. cbn [octets]. f_equal; [|apply IHk; lia].
      subst m. replace (Z.of_nat (length l)) with (Z.of_nat (length l - S k) + 1 + Z.of_nat k) by lia.
      rewrite !Z.pow_add_r by lia. rewrite Z.mul_assoc. rewrite Z.add_comm. rewrite Z.div_add by (apply Z.pow_nonzero; lia).
      rewrite Z.pow_1_r. rewrite Z.mul_assoc. rewrite Z.mod_add by lia. reflexivity. }
    apply G. lia.
Qed.

(** ** reading *)
Lemma decode_n_ok : forall n w rest p, length w = n -> n <> O ->
  decode_n n (mkDec (w ++ rest) p None) = (Some w, mkDec rest (Some (last w 0)) None).
Proof.
  intros n w rest p Hl Hn. unfold decode_n. cbn [derr dbuf].
  destruct n; [congruence|]. rewrite app_length.
  replace (S n <=? length w + length rest)%nat with true by (symmetry; apply Nat.leb_le; lia).
  rewrite firstn_app, skipn_app. rewrite Hl, Nat.sub_diag. rewrite <- Hl.
  rewrite firstn_all, skipn_all. simpl. rewrite app_nil_r. reflexivity.
Qed.
Lemma decode_n_0 : forall d, derr d = None -> decode_n 0 d = (Some [], d).
Proof. intros d H. unfold decode_n. rewrite H. reflexivity. Qed.
(** any length, when the following read or the final state does not depend on
    the unread byte *)
Lemma decode_n_ok0 : forall w rest p,
  decode_n (length w) (mkDec (w ++ rest) p None)
  = (Some w, mkDec rest (match w with [] => p | _ => Some (last w 0) end) None).
Proof.
  intros w rest p. destruct w as [|b w].
  - reflexivity.
  - rewrite decode_n_ok by (simpl; congruence). reflexivity.
Qed.
Lemma decode_u_ok : forall n w rest p old, length w = n -> n <> O ->
  decode_u n old (mkDec (w ++ rest) p None) = (be_val w, mkDec rest (Some (last w 0)) None).
Proof. intros. unfold decode_u. rewrite decode_n_ok by assumption. reflexivity. Qed.
Lemma decode_u1_ok : forall b rest p old,
  decode_u 1 old (mkDec (b :: rest) p None) = (b, mkDec rest (Some b) None).
Proof.
  intros. change (b :: rest) with ([b] ++ rest). rewrite decode_u_ok by (simpl; congruence).
  unfold be_val. simpl. reflexivity.
Qed.
Lemma decode_u_octets : forall n v rest p old, n <> O -> 0 <= v < 256 ^ Z.of_nat n ->
  decode_u n old (mkDec (octets n v ++ rest) p None) = (v, mkDec rest (Some (last (octets n v) 0)) None).
Proof. intros. rewrite decode_u_ok by (auto using octets_length). rewrite be_val_octets by assumption. reflexivity. Qed.

Lemma last_app2 : forall (l1 l2 : list Z) d, l2 <> [] -> last (l1 ++ l2) d = last l2 d.
Proof.
  induction l1; intros l2 d H; [reflexivity|]. simpl. rewrite IHl1 by assumption.
  destruct (l1 ++ l2) eqn:E; [|reflexivity]. apply app_eq_nil in E. tauto.
Qed.

(** ** encoder *)
Definition ok_enc (e : enc) : Prop := eerr e = None.
Lemma write_ok : forall bs b, write bs (mkEnc b None) = mkEnc (b ++ bs) None.
Proof. reflexivity. Qed.
Lemma write_u8_ok : forall v b, 0 <= v < 256 -> write_u8 v (mkEnc b None) = mkEnc (b ++ [v]) None.
Proof. intros. unfold write_u8, be8. rewrite Z.mod_small by lia. reflexivity. Qed.

(** ** tags *)
Lemma lor_small_table : forall m v, 0 <= m < 16 -> 0 <= v < 8 -> Z.lor (m * 16) v = m * 16 + v.
Proof.
  intros. pose proof (sweep2 16 8 (fun m v => Z.lor (m*16) v =? m*16+v) eq_refl m v H H0) as E.
  apply Z.eqb_eq in E. exact E.
Qed.

Lemma tag_byte1 : forall c v num, (c = 0 \/ c = 8) -> 0 <= v <= 5 -> 0 <= num <= 14 ->
  Z.lor (Z.lor c v) (u8 (Z.shiftl num 4)) = num * 16 + c + v.
Proof.
  intros c v num Hc Hv Hn.
  pose proof (sweep2 6 15 (fun v num =>
    (Z.lor (Z.lor 0 v) (u8 (Z.shiftl num 4)) =? num * 16 + 0 + v) &&
    (Z.lor (Z.lor 8 v) (u8 (Z.shiftl num 4)) =? num * 16 + 8 + v)) eq_refl v num ltac:(lia) ltac:(lia)) as E.
  cbv beta in E. destruct Hc; subst; lia.
Qed.
Lemma tag_byte2 : forall c v, (c = 0 \/ c = 8) -> 0 <= v <= 5 ->
  Z.lor (Z.lor c v) 240 = 240 + c + v.
Proof.
  intros c v Hc Hv.
  pose proof (sweep1 6 (fun v =>
    (Z.lor (Z.lor 0 v) 240 =? 240 + 0 + v) && (Z.lor (Z.lor 8 v) 240 =? 240 + 8 + v)) eq_refl v ltac:(lia)) as E.
  cbv beta in E. destruct Hc; subst; lia.
Qed.

Definition cls_z (c : bool) : Z := if c then 1 else 0.

Lemma enc_tag_spec : forall c num len b, 0 <= num < 256 -> 0 <= len < 2 ^ 32 ->
  enc_tag (mkTag num c len false false) (mkEnc b None)
  = mkEnc (b ++ spec_tag (cls_z c) num len) None.
Proof.
  intros c num len b Hn Hl. unfold enc_tag. cbn [tg_id tg_context tg_value tg_opening tg_closing].
  assert (Hc : (if c then meta_setContextSpecific 0 else 0) = cls_z c * 8) by (destruct c; reflexivity).
  rewrite Hc. clear Hc.
  assert (Hc8 : cls_z c * 8 = 0 \/ cls_z c * 8 = 8) by (destruct c; simpl; lia).
  assert (Ht : (if len <=? 4 then Z.lor (cls_z c * 8) (u8 len) else Z.lor (cls_z c * 8) 5)
             = Z.lor (cls_z c * 8) (if len <? 5 then len else 5)).
  { destruct (len <=? 4) eqn:E; destruct (len <? 5) eqn:E2; try lia; try reflexivity.
    unfold u8. rewrite Z.mod_small by lia. reflexivity. }
  rewrite Ht. clear Ht.
  assert (Hv : 0 <= (if len <? 5 then len else 5) <= 5) by (destruct (len <? 5) eqn:E; lia).
  assert (Hhead : (if num <=? 14
     then write_u8 (Z.lor (Z.lor (cls_z c * 8) (if len <? 5 then len else 5)) (u8 (Z.shiftl num 4))) (mkEnc b None)
     else write_u8 num (write_u8 (Z.lor (Z.lor (cls_z c * 8) (if len <? 5 then len else 5)) 240) (mkEnc b None)))
     = mkEnc (b ++ [ (if num <? 15 then num else 15) * 16 + cls_z c * 8 + (if len <? 5 then len else 5) ]
               ++ (if num <? 15 then [] else [num])) None).
  { destruct (num <=? 14) eqn:E; destruct (num <? 15) eqn:E2; try lia.
    - rewrite tag_byte1 by lia. rewrite write_u8_ok by lia. rewrite app_nil_r. reflexivity.
    - rewrite tag_byte2 by lia. rewrite write_u8_ok by lia. rewrite write_u8_ok by lia.
      rewrite <- app_assoc. reflexivity. }
  rewrite Hhead. clear Hhead. unfold spec_tag.
  destruct (4 <? len) eqn:E4; destruct (len <? 5) eqn:E5; try lia.
  - destruct (len <=? 253) eqn:E253; destruct (len <? 254) eqn:E254; try lia.
    + rewrite write_u8_ok by lia. rewrite <- !app_assoc. reflexivity.
    + destruct (len <=? 65535) eqn:E65; destruct (len <? 65536) eqn:E66; try lia.
      * rewrite write_u8_ok by lia. unfold write_u16. rewrite be16_octets, write_ok.
        rewrite <- !app_assoc. reflexivity.
      * rewrite write_u8_ok by lia. unfold write_u32. rewrite be32_octets, write_ok.
        rewrite <- !app_assoc. reflexivity.
  - rewrite app_nil_r. reflexivity.
Qed.

(** metadata predicates on the first octet of a tag *)
Definition all_bytes (P : Z -> bool) : bool := forallb P (zrange 256).
Lemma byte_sweep : forall P, all_bytes P = true -> forall b, is_byte b -> P b = true.
Proof. intros P H b Hb. exact (sweep1 256 P H b Hb). Qed.

Lemma meta_facts : forall b, is_byte b ->
  meta_isClosing b = (b mod 8 =? 7) /\
  meta_isOpening b = (6 <=? b mod 8) /\
  meta_isContextSpecific b = (8 <=? b mod 16) /\
  meta_isExtendedValue b = (b mod 8 =? 5) /\
  meta_isExtendedTagNumber b = (240 <=? b) /\
  Z.shiftr b 4 = b / 16 /\ Z.land b 7 = b mod 8.
Proof.
  intros b Hb.
  pose proof (byte_sweep (fun b =>
    Bool.eqb (meta_isClosing b) (b mod 8 =? 7) &&
    Bool.eqb (meta_isOpening b) (6 <=? b mod 8) &&
    Bool.eqb (meta_isContextSpecific b) (8 <=? b mod 16) &&
    Bool.eqb (meta_isExtendedValue b) (b mod 8 =? 5) &&
    Bool.eqb (meta_isExtendedTagNumber b) (240 <=? b) &&
    (Z.shiftr b 4 =? b / 16) && (Z.land b 7 =? b mod 8)) eq_refl b Hb) as E.
  cbv beta in E. rewrite !andb_true_iff in E. rewrite !eqb_true_iff in E.
  rewrite !Z.eqb_eq in E. tauto.
Qed.
