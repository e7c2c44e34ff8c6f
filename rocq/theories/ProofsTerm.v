(** Progress of the decoder: nothing lengthens the buffer, an error empties it. *)
From Coq Require Import Lia ZifyBool ZifyNat.
From Verif Require Import ModelDec SpecWire ProofsWire ProofsTrunc.
Ltac Zify.zify_post_hook ::= Z.div_mod_to_equations.

Definition shrinks (d d' : dec) : Prop :=
  (drained d -> drained d') /\ (length (dbuf d') <= length (dbuf d))%nat.
Lemma shrinks_refl : forall d, shrinks d d. Proof. split; [auto|lia]. Qed.
Lemma shrinks_trans : forall a b c, shrinks a b -> shrinks b c -> shrinks a c.
Proof. intros a b c [H1 H2] [H3 H4]. split; [auto|lia]. Qed.

Lemma decode_n_shrinks : forall n d, shrinks d (snd (decode_n n d)).
Proof.
  intros n [b p e]. unfold decode_n. cbn [derr dbuf]. destruct e; [apply shrinks_refl|].
  destruct n as [|n]; [apply shrinks_refl|]. destruct (S n <=? length b)%nat.
  - cbn [snd]. split; [left; reflexivity|]. cbn [dbuf]. rewrite skipn_length. lia.
  - destruct b; cbn [snd]; (split; [right; reflexivity|cbn [dbuf length]; lia]).
Qed.
Lemma decode_u_shrinks : forall n old d, shrinks d (snd (decode_u n old d)).
Proof.
  intros. unfold decode_u. pose proof (decode_n_shrinks n d). destruct (decode_n n d). exact H.
Qed.
Lemma buf_read_shrinks : forall n d, let '(_, err, d') := buf_read n d in
  (length (dbuf d') <= length (dbuf d))%nat /\ derr d' = derr d /\ (err <> None -> dbuf d' = []) /\ (dbuf d = [] -> dbuf d' = []).
Proof.
  intros n [b p e]. unfold buf_read. cbn [dbuf derr]. destruct b as [|x b].
  - destruct (n =? 0); cbn; auto.
  - cbv zeta. cbn [dbuf derr]. split; [|split; [|split]]; [|reflexivity|congruence|congruence].
    rewrite skipn_length. lia.
Qed.
Ltac shrink1 := match goal with
  | |- context [decode_u ?n ?o ?d] => let H := fresh "S" in pose proof (decode_u_shrinks n o d) as H;
      destruct (decode_u n o d) as [? ?]; cbn [snd] in H
  | |- context [decode_n ?n ?d] => let H := fresh "S" in pose proof (decode_n_shrinks n d) as H;
      destruct (decode_n n d) as [? ?]; cbn [snd] in H
  end.
Ltac chain := cbn [snd]; repeat match goal with
  | |- shrinks ?a ?a => apply shrinks_refl
  | H : shrinks ?a ?b |- shrinks ?a ?c => first [exact H | eapply shrinks_trans; [exact H|]; clear H]
  end.
Lemma tagNumber_shrinks : forall d, shrinks d (snd (tagNumber d)).
Proof. intros. unfold tagNumber. shrink1. destruct (meta_isExtendedTagNumber z); [shrink1|]; chain. Qed.
Lemma tagNumber_eats : forall d, derr d = None -> dbuf d <> [] -> (length (dbuf (snd (tagNumber d))) < length (dbuf d))%nat.
Proof.
  intros [b p e] He Hb. cbn [derr dbuf] in *. subst e. destruct b as [|x b]; [congruence|]. unfold tagNumber.
  rewrite decode_u1_ok. destruct (meta_isExtendedTagNumber x); [|cbn; lia].
  pose proof (decode_u_shrinks 1 0 (mkDec b (Some x) None)) as [_ H]. destruct (decode_u 1 0 (mkDec b (Some x) None)). cbn [snd dbuf length] in *. lia.
Qed.
Lemma dec_value_shrinks : forall m d, shrinks d (snd (dec_value m d)).
Proof.
  intros. unfold dec_value. destruct (meta_isExtendedValue m).
  - shrink1. destruct (z =? 255); [shrink1; chain|]. destruct (z =? 254); [shrink1; chain|]. chain.
  - destruct (meta_isOpening m || meta_isClosing m); apply shrinks_refl.
Qed.
Lemma tnv_shrinks : forall d, shrinks d (snd (tagNumberAndValue d)).
Proof.
  intros. unfold tagNumberAndValue. pose proof (tagNumber_shrinks d) as H. destruct (tagNumber d) as [[t m] d1]. cbn [snd] in H.
  pose proof (dec_value_shrinks m d1) as H2. destruct (dec_value m d1). chain.
Qed.
Lemma tnv_eats : forall d, derr d = None -> dbuf d <> [] -> (length (dbuf (snd (tagNumberAndValue d))) < length (dbuf d))%nat.
Proof.
  intros d H1 H2. unfold tagNumberAndValue. pose proof (tagNumber_eats d H1 H2) as H. destruct (tagNumber d) as [[t m] d1]. cbn [snd] in H.
  pose proof (dec_value_shrinks m d1) as [_ H3]. destruct (dec_value m d1). cbn [snd] in *. lia.
Qed.
Lemma dec_unsigned_shrinks : forall n d, shrinks d (snd (dec_unsigned n d)).
Proof.
  intros. unfold dec_unsigned, dec_unsigned24.
  destruct (n =? 1); [shrink1; chain|]. destruct (n =? 2); [shrink1; chain|].
  destruct (n =? 3); [do 3 shrink1; chain|]. destruct (n =? 4); [shrink1; chain|]. chain.
Qed.
Lemma dec_signed_shrinks : forall n d, shrinks d (snd (dec_signed n d)).
Proof.
  intros. unfold dec_signed, dec_signed24.
  destruct (n =? 1); [shrink1; chain|]. destruct (n =? 2); [shrink1; chain|].
  destruct (n =? 3); [do 3 shrink1; chain|]. destruct (n =? 4); [shrink1; chain|]. chain.
Qed.
Lemma dec_objectId_shrinks : forall d, shrinks d (snd (dec_objectId d)).
Proof. intros. unfold dec_objectId. shrink1. chain. Qed.
Lemma dec_date_shrinks : forall t n d, shrinks d (snd (dec_date t n d)).
Proof.
  intros. unfold dec_date. destruct (n <=? 0); [apply shrinks_refl|].
  pose proof (buf_read_shrinks n d) as H. destruct (buf_read n d) as [[data err] d1]. destruct H as (H1 & H2 & H3 & H4).
  assert (HS : shrinks d (set_derr err d1)).
  { split; [|cbn; lia]. intro HD. destruct err; [right; cbn; apply H3; congruence|left; reflexivity]. }
  destruct err; [exact HS|]. destruct (n <? 4); exact HS.
Qed.
Definition out_shrinks {A} (d : dec) (r : out dec A) : Prop :=
  match r with Val _ d' => shrinks d d' | _ => True end.
Lemma dec_time_shrinks : forall t n d, out_shrinks d (dec_time t n d).
Proof.
  intros. unfold dec_time. destruct (n <=? 0); [apply shrinks_refl|].
  pose proof (buf_read_shrinks n d) as H. destruct (buf_read n d) as [[data err] d1]. destruct H as (H1 & H2 & H3 & H4).
  assert (HS : shrinks d (set_derr err d1)).
  { split; [|cbn; lia]. intro HD. destruct err; [right; cbn; apply H3; congruence|left; reflexivity]. }
  destruct err; [exact HS|]. destruct (n <? 4); [exact I|exact HS].
Qed.
Lemma dec_string_shrinks : forall n d, out_shrinks d (dec_string n d).
Proof.
  intros. unfold dec_string. shrink1. destruct ((z =? 0) || (z =? 4)); [|cbn; chain].
  destruct (n <? 0); [exact I|]. shrink1. cbn. chain.
Qed.
Lemma dec_bitString_shrinks : forall n d, out_shrinks d (dec_bitString n d).
Proof.
  intros. unfold dec_bitString. destruct (n <=? 0); [apply shrinks_refl|]. shrink1.
  destruct (u8 (n - 1) <=? maxBitStringBytes); [|cbn; chain].
  destruct (bits_loop _ _ _ _); [cbn; chain|exact I].
Qed.
Lemma AppDataOfTag_shrinks : forall t n d, out_shrinks d (AppDataOfTag t n d).
Proof.
  intros. unfold AppDataOfTag.
  destruct (t =? tagNull); [apply shrinks_refl|]. destruct (t =? tagBool); [apply shrinks_refl|].
  destruct (t =? tagUint).
  { pose proof (dec_unsigned_shrinks n d) as H. destruct (dec_unsigned n d). exact H. }
  destruct (t =? tagInt).
  { pose proof (dec_signed_shrinks n d) as H. destruct (dec_signed n d). exact H. }
  destruct (t =? tagReal); [shrink1; cbn; chain|]. destruct (t =? tagDouble); [shrink1; cbn; chain|].
  destruct (t =? tagOctetString); [unfold dec_octetstring; shrink1; cbn; chain|].
  destruct (t =? tagCharacterString).
  { pose proof (dec_string_shrinks (n - 1) d) as H. destruct (dec_string (n - 1) d); exact H. }
  destruct (t =? tagBitString).
  { pose proof (dec_bitString_shrinks n d) as H. destruct (dec_bitString n d); exact H. }
  destruct (t =? tagEnumerated).
  { pose proof (dec_unsigned_shrinks n d) as H. unfold dec_enumerated. destruct (dec_unsigned n d). exact H. }
  destruct (t =? tagDate).
  { pose proof (dec_date_shrinks date0 n d) as H. destruct (dec_date date0 n d). exact H. }
  destruct (t =? tagTime).
  { pose proof (dec_time_shrinks time0 n d) as H. destruct (dec_time time0 n d); exact H. }
  destruct (t =? tagObjectID).
  { pose proof (dec_objectId_shrinks d) as H. destruct (dec_objectId d). exact H. }
  apply shrinks_refl.
Qed.
Lemma dec_AppData_eats : forall d r d', derr d = None -> dbuf d <> [] -> dec_AppData d = Val r d' ->
  shrinks d d' /\ (length (dbuf d') < length (dbuf d))%nat.
Proof.
  intros d r d' H1 H2 H3. unfold dec_AppData in H3.
  pose proof (tnv_shrinks d) as S1. pose proof (tnv_eats d H1 H2) as E1.
  destruct (tagNumberAndValue d) as [[[t m] v] d1]. cbn [snd] in *.
  pose proof (AppDataOfTag_shrinks t v d1) as S2. rewrite H3 in S2. cbn in S2.
  split; [eapply shrinks_trans; eassumption|]. destruct S2. lia.
Qed.
Lemma AppDataOfTag_fuel : forall t n d, AppDataOfTag t n d <> Fuel.
Proof.
  intros. unfold AppDataOfTag.
  repeat match goal with |- (if ?c then _ else _) <> _ => destruct c end; try discriminate;
  try (destruct (dec_unsigned _ _); discriminate); try (destruct (dec_signed _ _); discriminate);
  try (destruct (decode_u _ _ _); discriminate); try (destruct (dec_octetstring _ _); discriminate);
  try (destruct (dec_enumerated _ _); discriminate); try (destruct (dec_date _ _ _); discriminate);
  try (destruct (dec_objectId _); discriminate).
  - unfold dec_string. destruct (decode_u 1 0 d) as [c d1]. destruct ((c =? 0) || (c =? 4)); [|discriminate].
    destruct (n - 1 <? 0); [discriminate|]. destruct (decode_n _ d1). discriminate.
  - unfold dec_bitString. destruct (n <=? 0); [discriminate|]. destruct (decode_n _ d) as [? ?].
    destruct (_ <=? maxBitStringBytes); [|discriminate]. destruct (bits_loop _ _ _ _); discriminate.
  - unfold dec_time. destruct (n <=? 0); [discriminate|]. destruct (buf_read n d) as [[? err] ?].
    destruct err; [discriminate|]. destruct (n <? 4); discriminate.
Qed.
Lemma dec_AppData_fuel : forall d, dec_AppData d <> Fuel.
Proof. intros. unfold dec_AppData. destruct (tagNumberAndValue d) as [[[? ?] ?] ?]. apply AppDataOfTag_fuel. Qed.

Lemma readprop_loop_terminates : forall fuel acc d, drained d -> (length (dbuf d) < fuel)%nat -> readprop_loop fuel acc d <> Fuel.
Proof.
  induction fuel as [|fuel IH]; intros acc d HD Hf; [lia|]. cbn [readprop_loop].
  destruct (1 <? dlen d) eqn:E; [|discriminate].
  assert (Hb : dbuf d <> []) by (intro X; unfold dlen in E; rewrite X in E; discriminate).
  assert (He : derr d = None) by (destruct HD; [assumption|congruence]).
  destruct (dec_AppData d) as [[v [err|]] d'| |] eqn:EA; cbn [obind]; try discriminate.
  - destruct (dec_AppData_eats d _ d' He Hb EA) as [[S1 _] S2]. apply IH; [auto|lia].
  - exfalso. exact (dec_AppData_fuel d EA).
Qed.

Lemma dec_ReadProperty_terminates : forall d, drained d -> dec_ReadProperty d <> Fuel.
Proof.
  intros d HD. unfold dec_ReadProperty, dec_ReadProperty_fuel.
  destruct (dlen d <? 7); [discriminate|].
  pose proof (tagNumber_shrinks d) as S1. destruct (tagNumber d) as [[tag meta] d1]. cbn [snd] in S1.
  destruct (negb (tag =? 0)); [discriminate|]. destruct (negb (meta_isContextSpecific meta)); [discriminate|].
  pose proof (dec_objectId_shrinks d1) as S2. destruct (dec_objectId d1) as [oid d2]. cbn [snd] in S2.
  pose proof (tagNumber_shrinks d2) as S3. destruct (tagNumber d2) as [[tag2 meta2] d3]. cbn [snd] in S3.
  destruct (negb (tag2 =? 1)); [discriminate|].
  pose proof (dec_value_shrinks meta2 d3) as S4. destruct (dec_value meta2 d3) as [l d4]. cbn [snd] in S4.
  pose proof (dec_unsigned_shrinks l d4) as S5. unfold dec_enumerated. destruct (dec_unsigned l d4) as [pt d5]. cbn [snd] in S5.
  assert (S05 : shrinks d d5) by chain. clear S1 S2 S3 S4 S5.
  assert (S6 : shrinks d (snd (if negb (dlen d5 =? 0) then tagNumber d5 else (tag2, meta2, d5)))).
  { destruct (negb (dlen d5 =? 0)); [|exact S05]. eapply shrinks_trans; [exact S05|apply tagNumber_shrinks]. }
  destruct (if negb (dlen d5 =? 0) then tagNumber d5 else (tag2, meta2, d5)) as [[tag3 meta3] d6]. cbn [snd] in S6. clear S05.
  destruct (negb (dlen d6 =? 0) || (2 <=? tag3)); [|destruct (derr d6); discriminate].
  pose proof (dec_value_shrinks meta3 d6) as S7. destruct (dec_value meta3 d6) as [l2 d7]. cbn [snd] in S7.
  assert (S8 : shrinks d (snd (if tag3 =? 2 then
          let '(idx, d) := dec_unsigned l2 d7 in
          if 0 <? dlen d then let '((t, _), d) := tagNumber d in ((idx, t), d) else ((idx, 0), d)
        else ((ArrayAll, tag3), d7)))).
  { destruct (tag3 =? 2); [|chain]. pose proof (dec_unsigned_shrinks l2 d7) as S9. destruct (dec_unsigned l2 d7) as [idx d8]. cbn [snd] in S9.
    destruct (0 <? dlen d8); [|chain]. pose proof (tagNumber_shrinks d8) as S10. destruct (tagNumber d8) as [[? ?] ?]. chain. }
  destruct (if tag3 =? 2 then _ else _) as [[idx openTag] d8]. cbn [snd] in S8.
  destruct (openTag =? 3); [|destruct (derr d8); discriminate].
  destruct S8 as [S8a S8b].
  pose proof (readprop_loop_terminates (S (length (dbuf d))) [] d8 (S8a HD) ltac:(lia)) as HT.
  destruct (readprop_loop _ [] d8) as [[l3 [err|]] d9| |]; cbn [obind]; try discriminate; [|congruence].
  destruct (derr d9); discriminate.
Qed.

(** the loop over the values of one property, once the buffer has run out *)
Lemma val_loop_diverges : forall f obj pt objs arr, val_loop f obj pt 0 0 objs arr (mkDec [] None (Some EEOF)) = Fuel.
Proof. induction f; intros; [reflexivity|]. cbn. apply IHf. Qed.
