(** Taking values from arbitrary octets. *)
From Coq Require Import Lia ZifyBool ZifyNat.
From Verif Require Import ModelClient SpecWire SpecCodec SpecClient SpecExact ProofsWire ProofsTag ProofsApp ProofsTrunc ProofsRecv.
Ltac Zify.zify_post_hook ::= Z.div_mod_to_equations.

Lemma rest_some : forall meta r p num n len r', is_byte meta -> header_rest num (meta mod 8) r = Some (n, len, r') ->
  n = num /\ exists p', dec_value meta (mkDec r p None) = (len, mkDec r' p' None).
Proof.
  intros meta r p num n len r' Hm H. unfold header_rest in H. unfold dec_value.
  destruct (meta_facts meta Hm) as (Hcl & Hop & _ & Hev & _ & _ & Hld). rewrite Hcl, Hop, Hev, Hld.
  destruct (meta mod 8 =? 5) eqn:E5.
  - destruct r as [|x r]; [discriminate|]. rewrite decode_u1_ok. destruct (Z.eqb_spec x 254) as [->|N4].
    + change (254 =? 255) with false. cbv iota. destruct r as [|h [|l r]]; try discriminate. inversion H. subst.
      change (h :: l :: r') with ([h; l] ++ r'). rewrite decode_u_ok by (simpl; congruence). rewrite be_val2. eauto.
    + destruct (Z.eqb_spec x 255) as [->|N5].
      * destruct r as [|a [|b [|c [|d r]]]]; try discriminate. inversion H. subst.
        change (a :: b :: c :: d :: r') with ([a; b; c; d] ++ r'). rewrite decode_u_ok by (simpl; congruence). rewrite be_val4. eauto.
      * inversion H. subst. eauto.
  - inversion H. subst. split; [reflexivity|]. destruct (6 <=? meta mod 8) eqn:E6; cbn [orb]; [eauto|]. replace (meta mod 8 =? 7) with false by lia. eauto.
Qed.
Lemma header_some : forall bs p num len r, is_bytes bs -> header bs = Some (num, len, r) ->
  0 <= len /\ is_bytes r /\ exists p', tagNumberAndValue (mkDec bs p None) = ((num, hd 0 bs, len), mkDec r p' None).
Proof.
  intros bs p num len r Hb H.
  assert (G : forall n v r0 n' l' r', 0 <= v -> is_bytes r0 -> header_rest n v r0 = Some (n', l', r') -> 0 <= l' /\ is_bytes r').
  { intros n v r0 n' l' r' Hv Hr K. unfold header_rest in K. destruct (v =? 5).
    - destruct r0 as [|x r0]; [discriminate|]. inversion Hr as [|? ? Hx Hr1]; subst. unfold is_byte in Hx. destruct (x =? 254).
      + destruct r0 as [|h [|l r0]]; try discriminate. inversion K; subst. inversion Hr1 as [|? ? H1 Hr2]; subst. inversion Hr2 as [|? ? H2 Hr3]; subst. unfold is_byte in *. split; [lia|assumption].
      + destruct (x =? 255).
        * destruct r0 as [|a [|b [|c [|d r0]]]]; try discriminate. inversion K; subst. inversion Hr1 as [|? ? H1 Hr2]; subst. inversion Hr2 as [|? ? H2 Hr3]; subst.
          inversion Hr3 as [|? ? H3 Hr4]; subst. inversion Hr4 as [|? ? H4 Hr5]; subst. unfold is_byte in *. split; [lia|assumption].
        * inversion K; subst. split; [lia|assumption].
    - inversion K; subst. split; [destruct (6 <=? v); lia|assumption]. }
  destruct bs as [|b bs]; [discriminate|]. cbn [header] in H. inversion Hb as [|? ? Hb1 Hb2]; subst.
  unfold tagNumberAndValue, tagNumber. rewrite decode_u1_ok. destruct (meta_facts b Hb1) as (_ & _ & _ & _ & Hx & Hs & _). rewrite Hx, Hs.
  assert (E16 : (b / 16 =? 15) = (240 <=? b)) by (unfold is_byte in Hb1; lia). rewrite E16 in H. cbn [hd].
  destruct (240 <=? b).
  - destruct bs as [|n bs]; [discriminate|]. rewrite decode_u1_ok. destruct (rest_some b bs (Some n) n num len r Hb1 H) as (-> & p' & E). rewrite E.
    inversion Hb2; subst. destruct (G n (b mod 8) bs n len r ltac:(lia) ltac:(assumption) H). eauto.
  - destruct (rest_some b bs (Some b) (b / 16) num len r Hb1 H) as (-> & p' & E). rewrite E. destruct (G (b / 16) (b mod 8) bs _ len r ltac:(lia) Hb2 H). eauto.
Qed.
Lemma rest_none : forall meta r p num, is_byte meta -> header_rest num (meta mod 8) r = None ->
  exists e, dec_value meta (mkDec r p None) = (0, mkDec [] None (Some e)) /\ hdr_len num (meta mod 8) r = (num, 0, []).
Proof.
  intros meta r p num Hm H. unfold header_rest in H. unfold dec_value, hdr_len.
  destruct (meta_facts meta Hm) as (Hcl & Hop & _ & Hev & _ & _ & Hld). rewrite Hcl, Hop, Hev, Hld.
  destruct (meta mod 8 =? 5) eqn:E5; [|discriminate].
  destruct r as [|x r]; [rewrite decode_u_short by (simpl; lia); cbn; eauto|]. rewrite decode_u1_ok. destruct (Z.eqb_spec x 254) as [->|N4].
  - change (254 =? 255) with false. cbv iota. destruct r as [|h [|l r]]; try discriminate; rewrite decode_u_short by (simpl; lia); eauto.
  - destruct (Z.eqb_spec x 255) as [->|N5]; [|discriminate]. destruct r as [|a [|b [|c [|d r]]]]; try discriminate; rewrite decode_u_short by (simpl; lia); eauto.
Qed.
Ltac fin := do 2 eexists; split; [reflexivity|split; [reflexivity|first [left; reflexivity|right; reflexivity]]].
Lemma header_none : forall bs p, is_bytes bs -> header bs = None ->
  exists len e, tagNumberAndValue (mkDec bs p None) = ((fst (fst (hdr bs)), hd 0 bs, len), mkDec [] None (Some e)) /\ snd (hdr bs) = [] /\ (fst (fst (hdr bs)) = 0 \/ len = 0).
Proof.
  intros bs p Hb H. destruct bs as [|b bs].
  { unfold tagNumberAndValue, tagNumber. rewrite decode_u_short by (simpl; lia). cbn. fin. }
  cbn [header] in H. inversion Hb as [|? ? Hb1 Hb2]; subst. cbn [hdr hd].
  unfold tagNumberAndValue, tagNumber. rewrite decode_u1_ok. destruct (meta_facts b Hb1) as (Hcl & Hop & _ & Hev & Hx & Hs & Hld). rewrite Hx, Hs.
  assert (E16 : (b / 16 =? 15) = (240 <=? b)) by (unfold is_byte in Hb1; lia). rewrite E16 in H |- *.
  destruct (240 <=? b).
  - destruct bs as [|n bs].
    + rewrite decode_u_short by (simpl; lia). unfold dec_value. rewrite Hev, Hcl, Hop, Hld. unfold hdr_len.
      destruct (b mod 8 =? 5) eqn:E5; [rewrite decode_u_err; cbn; fin|]. destruct (6 <=? b mod 8); cbn [orb fst snd]; [fin|]. destruct (b mod 8 =? 7); cbn [fst snd]; fin.
    + rewrite decode_u1_ok. destruct (rest_none b bs (Some n) n Hb1 H) as (e & -> & ->). cbn [fst snd]. fin.
  - destruct (rest_none b bs (Some b) (b / 16) Hb1 H) as (e & -> & ->). cbn [fst snd]. fin.
Qed.

(** contents *)
Lemma dec_take : forall n r p, decode_n n (mkDec r p None) =
  if (n <=? length r)%nat then (Some (firstn n r), mkDec (skipn n r) (match n with O => p | _ => Some (last (firstn n r) 0) end) None) else (None, mkDec [] None (Some (short_err r))).
Proof.
  intros n r p. destruct (n <=? length r)%nat eqn:E.
  - unfold decode_n. cbn [derr dbuf]. destruct n; [reflexivity|]. rewrite E. reflexivity.
  - apply decode_n_short. apply Nat.leb_gt in E. exact E.
Qed.
Lemma u_take : forall n r p, (0 < n)%nat -> decode_u n 0 (mkDec r p None) =
  if (n <=? length r)%nat then (big (firstn n r), mkDec (skipn n r) (Some (last (firstn n r) 0)) None) else (0, mkDec [] None (Some (short_err r))).
Proof. intros n r p Hn. unfold decode_u. rewrite dec_take. destruct (n <=? length r)%nat; [|reflexivity]. destruct n; [lia|reflexivity]. Qed.
Definition width (len : Z) : Z := if (1 <=? len) && (len <=? 4) then len else 0.
Lemma unsigned_take : forall len r p, is_bytes r ->
  if width len <=? zlen r then exists p', dec_unsigned len (mkDec r p None) = (big (firstn (Z.to_nat (width len)) r), mkDec (skipn (Z.to_nat (width len)) r) p' None)
  else exists v e, dec_unsigned len (mkDec r p None) = (v, mkDec [] None (Some e)).
Proof.
  intros len r p Hr. unfold dec_unsigned, width, zlen.
  assert (C : len = 1 \/ len = 2 \/ len = 3 \/ len = 4 \/ ((1 <=? len) && (len <=? 4) = false /\ len <> 1 /\ len <> 2 /\ len <> 3 /\ len <> 4)) by lia.
  destruct C as [->|[->|[->|[->|(-> & N1 & N2 & N3 & N4)]]]]; cbn [Z.eqb Pos.eqb Z.leb Z.compare Pos.compare Pos.compare_cont andb].
  - change (Z.to_nat 1) with 1%nat. rewrite u_take by lia. destruct (1 <=? length r)%nat eqn:E; [replace (1 <=? Z.of_nat (length r)) with true by lia|replace (1 <=? Z.of_nat (length r)) with false by lia]; eauto.
  - change (Z.to_nat 2) with 2%nat. rewrite u_take by lia. destruct (2 <=? length r)%nat eqn:E; [replace (2 <=? Z.of_nat (length r)) with true by lia|replace (2 <=? Z.of_nat (length r)) with false by lia]; eauto.
  - change (Z.to_nat 3) with 3%nat. destruct r as [|a [|b [|c r]]].
    + cbn. eauto.
    + cbn. eauto.
    + cbn. eauto.
    + replace (3 <=? Z.of_nat (length (a :: b :: c :: r))) with true by (cbn [length]; lia). inversion Hr as [|? ? H1 Hr1]; subst. inversion Hr1 as [|? ? H2 Hr2]; subst. inversion Hr2 as [|? ? H3 Hr3]; subst.
      rewrite dec_unsigned24_ok by assumption. cbn [firstn skipn]. unfold big. cbn [fold_left]. eexists. f_equal. lia.
  - change (Z.to_nat 4) with 4%nat. rewrite u_take by lia. destruct (4 <=? length r)%nat eqn:E; [replace (4 <=? Z.of_nat (length r)) with true by lia|replace (4 <=? Z.of_nat (length r)) with false by lia]; eauto.
  - replace (0 <=? Z.of_nat (length r)) with true by lia. replace (len =? 1) with false by lia. replace (len =? 2) with false by lia. replace (len =? 3) with false by lia. replace (len =? 4) with false by lia.
    cbn. eauto.
Qed.
Lemma signed_take : forall len r p, is_bytes r ->
  if width len <=? zlen r then exists v p', dec_signed len (mkDec r p None) = (v, mkDec (skipn (Z.to_nat (width len)) r) p' None)
  else exists v e, dec_signed len (mkDec r p None) = (v, mkDec [] None (Some e)).
Proof.
  intros len r p Hr. unfold dec_signed, width, zlen.
  assert (C : len = 1 \/ len = 2 \/ len = 3 \/ len = 4 \/ ((1 <=? len) && (len <=? 4) = false /\ len <> 1 /\ len <> 2 /\ len <> 3 /\ len <> 4)) by lia.
  destruct C as [->|[->|[->|[->|(-> & N1 & N2 & N3 & N4)]]]]; cbn [Z.eqb Pos.eqb Z.leb Z.compare Pos.compare Pos.compare_cont andb].
  - change (Z.to_nat 1) with 1%nat. rewrite u_take by lia. destruct (1 <=? length r)%nat eqn:E; [replace (1 <=? Z.of_nat (length r)) with true by lia|replace (1 <=? Z.of_nat (length r)) with false by lia]; eauto.
  - change (Z.to_nat 2) with 2%nat. rewrite u_take by lia. destruct (2 <=? length r)%nat eqn:E; [replace (2 <=? Z.of_nat (length r)) with true by lia|replace (2 <=? Z.of_nat (length r)) with false by lia]; eauto.
  - change (Z.to_nat 3) with 3%nat. destruct r as [|a [|b [|c r]]].
    + cbn. eauto.
    + cbn. eauto.
    + cbn. eauto.
    + replace (3 <=? Z.of_nat (length (a :: b :: c :: r))) with true by (cbn [length]; lia). unfold dec_signed24. rewrite !decode_u1_ok. cbn [skipn]. eauto.
  - change (Z.to_nat 4) with 4%nat. rewrite u_take by lia. destruct (4 <=? length r)%nat eqn:E; [replace (4 <=? Z.of_nat (length r)) with true by lia|replace (4 <=? Z.of_nat (length r)) with false by lia]; eauto.
  - replace (0 <=? Z.of_nat (length r)) with true by lia. replace (len =? 1) with false by lia. replace (len =? 2) with false by lia. replace (len =? 3) with false by lia. replace (len =? 4) with false by lia.
    cbn. eauto.
Qed.

(** one value *)
Definition oid_in (v : value) : object_id := match v with VOid o => o | _ => mkOid 0 0 end.
Definition number_in (v : value) : Z := match v with VUint n => n | _ => 0 end.
Definition took (bs : list Z) (o : out dec (value * option gerr)) : Prop :=
  match take_value bs with
  | Crash => o = Panic
  | Missing => exists v e b x, o = Val (v, e) (mkDec b None (Some x))
  | Taken refused num c r => is_bytes r /\ exists v e p, o = Val (v, e) (mkDec r p None)
      /\ (match e with None => false | Some _ => true end) = refused /\ oid_in v = as_oid (num, c) /\ number_in v = as_number (num, c)
  end.
Lemma skip_bytes : forall n r, is_bytes r -> is_bytes (skipn n r).
Proof. intros n r H. rewrite <- (firstn_skipn n r) in H. apply Forall_app in H. apply H. Qed.
Lemma oid_take : forall r p, is_bytes r -> 4 <= zlen r -> exists p', dec_objectId (mkDec r p None) = (as_oid (12, firstn 4 r), mkDec (skipn 4 r) p' None).
Proof.
  intros r p Hr H. unfold dec_objectId. rewrite u_take by lia. replace (4 <=? length r)%nat with true by (unfold zlen in H; lia).
  unfold as_oid. cbn [fst snd]. change (12 =? 12) with true. cbv iota. eexists. f_equal.
  assert (B : 0 <= big (firstn 4 r) < 2 ^ 32).
  { destruct r as [|a [|b [|c [|d r]]]]; try (unfold zlen in H; cbn [length] in H; lia). cbn [firstn]. unfold big. cbn [fold_left].
    inversion Hr as [|? ? H1 Hr1]; subst. inversion Hr1 as [|? ? H2 Hr2]; subst. inversion Hr2 as [|? ? H3 Hr3]; subst. inversion Hr3 as [|? ? H4 Hr4]; subst. unfold is_byte in *. lia. }
  unfold MaxObject, MaxInstance. change 1023 with (Z.ones 10). change 4194303 with (Z.ones 22). rewrite !Z.land_ones by lia. rewrite Z.shiftr_div_pow2 by lia.
  change (2 ^ 22) with 4194304. change (2 ^ 10) with 1024. f_equal. apply Z.mod_small. lia.
Qed.
Lemma value_took : forall bs p, is_bytes bs -> took bs (dec_AppData (mkDec bs p None)).
Proof.
  intros bs p Hb. unfold took, take_value, dec_AppData. destruct (header bs) as [[[num len] r]|] eqn:EH.
  2:{ destruct (header_none bs p Hb EH) as (len & e & E & _ & K). rewrite E. destruct (Z.eqb_spec (fst (fst (hdr bs))) 7) as [E7|N7].
    - rewrite E7. destruct K as [K| ->]; [lia|]. reflexivity.
    - unfold AppDataOfTag; unfold_tags. destruct K as [K|K].
      + rewrite K. cbn. do 4 eexists. reflexivity.
      + subst len. set (num := fst (fst (hdr bs))) in *. destruct (num =? 0); [do 4 eexists; reflexivity|]. destruct (num =? 1); [do 4 eexists; reflexivity|].
        destruct (num =? 2); [do 4 eexists; reflexivity|]. destruct (num =? 3); [do 4 eexists; reflexivity|]. destruct (num =? 4); [do 4 eexists; reflexivity|]. destruct (num =? 5); [do 4 eexists; reflexivity|].
        destruct (num =? 6); [do 4 eexists; reflexivity|]. replace (num =? 7) with false by lia. destruct (num =? 8); [do 4 eexists; reflexivity|]. destruct (num =? 9); [do 4 eexists; reflexivity|].
        destruct (num =? 10); [do 4 eexists; reflexivity|]. destruct (num =? 11); [do 4 eexists; reflexivity|]. destruct (num =? 12); do 4 eexists; reflexivity. }
  destruct (header_some bs p num len r Hb EH) as (Hlen & Hr & q & E). rewrite E. clear E EH Hb. unfold AppDataOfTag; unfold_tags.
  assert (TK : forall n, take num n r = if n <=? zlen r then Taken false num (firstn (Z.to_nat n) r) (skipn (Z.to_nat n) r) else Missing) by reflexivity.
  assert (Z0 : (0 <=? zlen r) = true) by (unfold zlen; lia).
  destruct (Z.eqb_spec num 0) as [->|N0].
  { cbn [orb]. rewrite TK, Z0. cbn. split; [exact Hr|]. do 3 eexists. repeat split. }
  destruct (Z.eqb_spec num 1) as [->|N1].
  { cbn [orb]. rewrite TK, Z0. cbn. split; [exact Hr|]. do 3 eexists. repeat split. }
  cbn [orb]. fold (width len).
  destruct (Z.eqb_spec num 2) as [->|N2].
  { cbn [orb]. rewrite TK. pose proof (unsigned_take len r q Hr) as U. destruct (width len <=? zlen r).
    - destruct U as (p' & ->). split; [apply skip_bytes; exact Hr|]. do 3 eexists. repeat split.
    - destruct U as (v & e & ->). do 4 eexists. reflexivity. }
  destruct (Z.eqb_spec num 3) as [->|N3].
  { cbn [orb]. rewrite TK. pose proof (signed_take len r q Hr) as U. destruct (width len <=? zlen r).
    - destruct U as (v & p' & ->). split; [apply skip_bytes; exact Hr|]. do 3 eexists. repeat split.
    - destruct U as (v & e & ->). do 4 eexists. reflexivity. }
  destruct (Z.eqb_spec num 4) as [->|N4].
  { cbn [orb Z.eqb Pos.eqb]. rewrite TK, u_take by lia. replace (4 <=? length r)%nat with (4 <=? zlen r) by (unfold zlen; lia). destruct (4 <=? zlen r).
    - split; [apply skip_bytes; exact Hr|]. do 3 eexists. repeat split.
    - do 4 eexists. reflexivity. }
  destruct (Z.eqb_spec num 5) as [->|N5].
  { cbn [orb Z.eqb Pos.eqb]. rewrite TK, u_take by lia. replace (8 <=? length r)%nat with (8 <=? zlen r) by (unfold zlen; lia). destruct (8 <=? zlen r).
    - split; [apply skip_bytes; exact Hr|]. do 3 eexists. repeat split.
    - do 4 eexists. reflexivity. }
  destruct (Z.eqb_spec num 6) as [->|N6].
  { cbn [orb Z.eqb Pos.eqb]. rewrite TK. unfold dec_octetstring. rewrite dec_take. replace (Z.to_nat len <=? length r)%nat with (len <=? zlen r) by (unfold zlen; lia). destruct (len <=? zlen r).
    - split; [apply skip_bytes; exact Hr|]. do 3 eexists. repeat split.
    - do 4 eexists. reflexivity. }
  destruct (Z.eqb_spec num 7) as [->|N7].
  { cbn [orb Z.eqb Pos.eqb]. unfold dec_string. destruct r as [|c r].
    - rewrite decode_u_short by (simpl; lia). cbn [Z.eqb orb]. destruct (Z.eqb_spec len 0) as [->|NL]; [reflexivity|].
      replace (len - 1 <? 0) with false by lia. cbn [decode_n derr obind fst snd]. do 4 eexists. reflexivity.
    - rewrite decode_u1_ok. destruct ((c =? 0) || (c =? 4)).
      + destruct (Z.eqb_spec len 0) as [->|NL]; [reflexivity|]. replace (len - 1 <? 0) with false by lia. rewrite dec_take. unfold take.
        inversion Hr; subst. replace (Z.to_nat (len - 1) <=? length r)%nat with (len - 1 <=? zlen r) by (unfold zlen; lia). destruct (len - 1 <=? zlen r); cbn [obind fst snd].
        * split; [apply skip_bytes; assumption|]. do 3 eexists. repeat split.
        * do 4 eexists. reflexivity.
      + cbn [obind fst snd]. inversion Hr; subst. split; [assumption|]. do 3 eexists. repeat split. }
  destruct (Z.eqb_spec num 8) as [->|N8].
  { cbn [orb Z.eqb Pos.eqb]. rewrite TK. pose proof (bitString_nopanic len (mkDec r q None)) as NP. unfold dec_bitString in *. destruct (len <=? 0) eqn:E0.
    - assert (len = 0) by lia. subst len. rewrite Z0. cbn. split; [exact Hr|]. do 3 eexists. repeat split.
    - rewrite dec_take in *. replace (Z.to_nat len <=? length r)%nat with (len <=? zlen r) in * by (unfold zlen; lia). cbv zeta in *.
      destruct (len <=? zlen r); cbv iota beta in *.
      + destruct (u8 (len - 1) <=? maxBitStringBytes); [destruct (bits_loop _ _ _ _); [|congruence]|]; cbn [obind derr]; (split; [apply skip_bytes; exact Hr|]; do 3 eexists; repeat split).
      + destruct (u8 (len - 1) <=? maxBitStringBytes); [destruct (bits_loop _ _ _ _); [|congruence]|]; cbn [obind derr]; do 4 eexists; reflexivity. }
  destruct (Z.eqb_spec num 9) as [->|N9].
  { cbn [orb Z.eqb Pos.eqb]. rewrite TK. unfold dec_enumerated. pose proof (unsigned_take len r q Hr) as U. destruct (width len <=? zlen r).
    - destruct U as (p' & ->). split; [apply skip_bytes; exact Hr|]. do 3 eexists. repeat split.
    - destruct U as (v & e & ->). do 4 eexists. reflexivity. }
  destruct (Z.eqb_spec num 10) as [->|N10].
  { cbn [orb andb Z.eqb Pos.eqb]. unfold dec_date. destruct (len <=? 0) eqn:E0.
    - assert (len = 0) by lia. subst len. cbn [Z.eqb Z.to_nat firstn skipn]. destruct r; cbn; (split; [exact Hr|]; do 3 eexists; repeat split).
    - unfold buf_read. cbn [dbuf derr]. destruct r as [|c r].
      + replace (len =? 0) with false by lia. do 4 eexists. reflexivity.
      + assert (K : skipn (Nat.min (Z.to_nat len) (length (c :: r))) (c :: r) = skipn (Z.to_nat len) (c :: r)).
        { destruct (Nat.min_spec (Z.to_nat len) (length (c :: r))) as [[_ ->]|[H ->]]; [reflexivity|]. rewrite skipn_all, skipn_all2 by lia. reflexivity. }
        rewrite K. unfold set_derr. cbn [dbuf dprev]. destruct (len <? 4); cbn [derr]; (split; [apply skip_bytes; exact Hr|]; do 3 eexists; repeat split). }
  destruct (Z.eqb_spec num 11) as [->|N11].
  { cbn [orb andb Z.eqb Pos.eqb]. unfold dec_time. destruct (len <=? 0) eqn:E0.
    - assert (len = 0) by lia. subst len. cbn [Z.eqb Z.to_nat firstn skipn Z.leb Z.compare andb]. destruct r; cbn; (split; [exact Hr|]; do 3 eexists; repeat split).
    - unfold buf_read. cbn [dbuf derr]. destruct r as [|c r].
      + replace (len =? 0) with false by lia. do 4 eexists. reflexivity.
      + assert (K : skipn (Nat.min (Z.to_nat len) (length (c :: r))) (c :: r) = skipn (Z.to_nat len) (c :: r)).
        { destruct (Nat.min_spec (Z.to_nat len) (length (c :: r))) as [[_ ->]|[H ->]]; [reflexivity|]. rewrite skipn_all, skipn_all2 by lia. reflexivity. }
        rewrite K. unfold set_derr. cbn [dbuf dprev]. destruct (len <? 4) eqn:E4.
        * replace ((1 <=? len) && (len <=? 3)) with true by lia. reflexivity.
        * replace ((1 <=? len) && (len <=? 3)) with false by lia. cbn [obind derr]. split; [apply skip_bytes; exact Hr|]. do 3 eexists. repeat split. }
  destruct (Z.eqb_spec num 12) as [->|N12].
  { cbn [orb Z.eqb Pos.eqb]. rewrite TK. destruct (4 <=? zlen r) eqn:E4.
    - destruct (oid_take r q Hr ltac:(lia)) as (p' & ->). split; [apply skip_bytes; exact Hr|]. do 3 eexists. repeat split.
    - unfold dec_objectId. rewrite decode_u_short by (unfold zlen in E4; lia). do 4 eexists. reflexivity. }
  cbn [orb]. replace (num =? 2) with false by lia. replace (num =? 12) with false by lia.
  split; [exact Hr|]. do 3 eexists. split; [reflexivity|]. split; [reflexivity|]. unfold as_oid, as_number. cbn [fst snd oid_in number_in].
  replace (num =? 12) with false by lia. replace (num =? 2) with false by lia. replace (num =? 9) with false by lia. split; reflexivity.
Qed.

(** four values *)
Lemma app_failed : forall b q x, dec_AppData (mkDec b q (Some x)) = Val (VNull, None) (mkDec b q (Some x)).
Proof. reflexivity. Qed.
Lemma iam_taken : forall raw, is_bytes raw ->
  match take_value raw with Crash => True | Taken false _ _ r => crash_within 3 r | _ => False end /\ dec_IAm (newDecoder raw) = Panic
  \/ ~ match take_value raw with Crash => True | Taken false _ _ r => crash_within 3 r | _ => False end
     /\ match iam_octets raw with
        | Some (id, m, s, v) => exists d, dec_IAm (newDecoder raw) = Val (mkIam id m s v addr0, None) d
        | None => exists i e d, dec_IAm (newDecoder raw) = Val (i, Some e) d
        end.
Proof.
  intros raw Hb. unfold iam_octets, dec_IAm, newDecoder. pose proof (value_took raw None Hb) as H. unfold took in H.
  destruct (take_value raw) as [| |rf num c r0].
  - left. rewrite H. split; [exact Logic.I|reflexivity].
  - right. split; [auto|]. destruct H as (v & e & b & x & ->). cbn [obind]. destruct e as [e|]; [do 3 eexists; reflexivity|]. repeat (rewrite app_failed; cbn [obind]). cbn [derr]. do 3 eexists; reflexivity.
  - destruct H as (Hr0 & v0 & e0 & p0 & -> & HE & HO & _). cbn [obind]. destruct e0 as [e0|]; subst rf; [right; split; [auto|eauto]|].
    cbn [crash_within all_taken]. pose proof (value_took r0 p0 Hr0) as H. unfold took in H. destruct (take_value r0) as [| |rf1 n1 c1 r1].
    { left. rewrite H. split; [exact Logic.I|reflexivity]. }
    { right. split; [auto|]. destruct H as (v & e & b & x & ->). cbn [obind]. repeat (rewrite app_failed; cbn [obind]). cbn [derr]. do 3 eexists; reflexivity. }
    destruct H as (Hr1 & v1 & e1 & p1 & -> & _ & _ & HN1). cbn [obind fst snd].
    pose proof (value_took r1 p1 Hr1) as H. unfold took in H. destruct (take_value r1) as [| |rf2 n2 c2 r2].
    { left. rewrite H. split; [exact Logic.I|reflexivity]. }
    { right. split; [auto|]. destruct H as (v & e & b & x & ->). cbn [obind]. repeat (rewrite app_failed; cbn [obind]). cbn [derr]. do 3 eexists; reflexivity. }
    destruct H as (Hr2 & v2 & e2 & p2 & -> & _ & _ & HN2). cbn [obind fst snd].
    pose proof (value_took r2 p2 Hr2) as H. unfold took in H. destruct (take_value r2) as [| |rf3 n3 c3 r3].
    { left. rewrite H. split; [exact Logic.I|reflexivity]. }
    { right. split; [auto|]. destruct H as (v & e & b & x & ->). cbn [obind derr]. eauto. }
    destruct H as (Hr3 & v3 & e3 & p3 & -> & _ & _ & HN3). cbn [obind fst snd derr]. right. split; [auto|]. eexists.
    unfold oid_in in HO. unfold number_in in *. rewrite HO, HN1, HN2, HN3. reflexivity.
Qed.

(** error PDUs *)
Lemma unsigned_in_spec : forall w p, is_bytes w -> exists num meta len d1, tagNumberAndValue (mkDec w p None) = ((num, meta, len), d1)
  /\ match unsigned_in w with
     | Some (v, r) => is_bytes r /\ exists q, dec_unsigned len d1 = (v, mkDec r q None)
     | None => exists v b q x, dec_unsigned len d1 = (v, mkDec b q (Some x))
     end.
Proof.
  intros w p Hw. unfold unsigned_in. destruct (header w) as [[[num len] r]|] eqn:EH.
  - destruct (header_some w p num len r Hw EH) as (_ & Hr & q & ->). do 4 eexists. split; [reflexivity|]. fold (width len).
    pose proof (unsigned_take len r q Hr) as U. cbv zeta. destruct (width len <=? zlen r).
    + split; [apply skip_bytes; exact Hr|exact U].
    + destruct U as (v & e & E). do 4 eexists. exact E.
  - destruct (header_none w p Hw EH) as (len & e & -> & _). do 4 eexists. split; [reflexivity|].
    destruct (Z_lt_dec len 0).
    + unfold dec_unsigned. replace (len =? 1) with false by lia. replace (len =? 2) with false by lia. replace (len =? 3) with false by lia. replace (len =? 4) with false by lia. eauto 6.
    + destruct (failed_unsigned len (mkDec [] None (Some e))) as (v & ->); [unfold failed; cbn; discriminate|lia|]. eauto 6.
Qed.
Lemma tagNumber_at : forall w p, is_bytes w -> exists tag d, tagNumber (mkDec w p None) = ((tag, nth 0 w 0), d)
  /\ (if Nat.leb (if (nth 0 w 0 / 16 =? 15)%Z then 2 else 1) (length w) then exists q, d = mkDec (skipn (if nth 0 w 0 / 16 =? 15 then 2 else 1) w) q None
      else skipn (if nth 0 w 0 / 16 =? 15 then 2 else 1) w = [] /\ exists x, d = mkDec [] None (Some x)).
Proof.
  intros w p Hw. unfold tagNumber. destruct w as [|b w].
  { rewrite decode_u_short by (simpl; lia). cbn. do 2 eexists. split; [reflexivity|]. split; [reflexivity|]. eauto. }
  inversion Hw as [|? ? Hb Hw']; subst. rewrite decode_u1_ok. destruct (meta_facts b Hb) as (_ & _ & _ & _ & Hx & _). rewrite Hx. cbn [nth].
  replace (b / 16 =? 15) with (240 <=? b) by (unfold is_byte in Hb; lia). destruct (240 <=? b).
  - destruct w as [|n w]; [rewrite decode_u_short by (simpl; lia); cbn; do 2 eexists; split; [reflexivity|]; split; [reflexivity|]; eauto|].
    rewrite decode_u1_ok. do 2 eexists. split; [reflexivity|]. cbn. eauto.
  - do 2 eexists. split; [reflexivity|]. cbn. eauto.
Qed.
Lemma tagged_at : forall w p, is_bytes w -> exists tag len d, tagNumberAndValue (mkDec w p None) = ((tag, nth 0 w 0, len), d)
  /\ ((exists q, d = mkDec (snd (hdr w)) q None) \/ snd (hdr w) = [] /\ exists x, d = mkDec [] None (Some x)) /\ is_bytes (snd (hdr w)).
Proof.
  intros w p Hw. destruct (header w) as [[[num len] r]|] eqn:EH.
  - destruct (header_some w p num len r Hw EH) as (_ & Hr & q & E). destruct (hdr_spec w p Hw) as (meta & d & E' & Hd & _).
    rewrite E in E'. inversion E'. subst. cbn [dbuf] in Hd. rewrite <- Hd. do 3 eexists. split; [rewrite E; destruct w; reflexivity|]. split; [left; eauto|exact Hr].
  - destruct (header_none w p Hw EH) as (len & e & E & Hs & _). do 3 eexists. split; [rewrite E; destruct w; reflexivity|]. rewrite Hs. split; [right; eauto|constructor].
Qed.
Lemma tagged_failed : forall b q x, tagNumberAndValue (mkDec b q (Some x)) = ((0, 0, 0), mkDec b q (Some x)).
Proof. reflexivity. Qed.
Lemma unsigned_failed : forall n b q x, exists v, dec_unsigned n (mkDec b q (Some x)) = (v, mkDec b q (Some x)).
Proof. intros n b q x. unfold dec_unsigned. destruct (n =? 1); [eexists; reflexivity|]. destruct (n =? 2); [eexists; reflexivity|]. destruct (n =? 3); [eexists; reflexivity|]. destruct (n =? 4); eexists; reflexivity. Qed.

Definition err_body (ty : apdu) (inv svc : Z) (d : dec) : (apdu * option gerr) * dec :=
  let mk c k := mkApdu (p_type ty) (p_seg ty) (p_more ty) (p_segacc ty) 0 0 inv 0 0 svc 0 c k [] in
  let '((_, meta), d) := tagNumber d in
  if meta_isOpening meta then
    let '((_, _, v), d) := tagNumberAndValue d in
    let '(c, d) := dec_unsigned v d in
    let '((_, _, v), d) := tagNumberAndValue d in
    let '(k, d) := dec_unsigned v d in
    let '((_, meta), d) := tagNumber d in
    let r := mk (u16 c) k in
    if negb (meta_isClosing meta) then ((r, Some EWrongTagClosing), d) else ((r, None), d)
  else
    let '((_, c, _), d) := tagNumberAndValue d in
    let '((_, k, _), d) := tagNumberAndValue d in
    ((mk c k, None), d).
Definition error_in (w : list Z) : option (Z * Z) := error_octets (0 :: 0 :: w).
Lemma err_body_failed : forall ty inv svc b q x, exists a, err_body ty inv svc (mkDec b q (Some x)) = ((a, None), mkDec b q (Some x)) /\ p_eclass a = 0 /\ p_ecode a = 0.
Proof. intros. eexists. split; [reflexivity|]. split; reflexivity. Qed.
Lemma err_body_spec : forall ty inv svc w p, is_bytes w ->
  match error_in w with
  | Some (c, k) => exists a d, err_body ty inv svc (mkDec w p None) = ((a, None), d) /\ p_eclass a = c /\ p_ecode a = k
  | None => exists a e d, err_body ty inv svc (mkDec w p None) = ((a, Some e), d)
  end.
Proof.
  intros ty inv svc w p Hw. unfold error_in, error_octets, err_body. change (skipn 2 (0 :: 0 :: w)) with w. cbv zeta.
  destruct (tagNumber_at w p Hw) as (tag & d & -> & HD).
  assert (Hm : is_byte (nth 0 w 0)) by (destruct w; [unfold is_byte; cbn; lia|inversion Hw; assumption]).
  destruct (meta_facts _ Hm) as (_ & -> & _).
  set (w1 := skipn (if nth 0 w 0 / 16 =? 15 then 2 else 1) w) in *.
  assert (Hw1 : is_bytes w1) by (apply skip_bytes; exact Hw).
  destruct (6 <=? nth 0 w 0 mod 8).
  - match type of HD with if ?b then _ else _ => destruct b end.
    + destruct HD as (q & ->). destruct (unsigned_in_spec w1 q Hw1) as (n1 & m1 & l1 & d1 & -> & U). destruct (unsigned_in w1) as [[c w2]|].
      * destruct U as (Hw2 & q2 & ->). destruct (unsigned_in_spec w2 q2 Hw2) as (n2 & m2 & l2 & d2 & -> & U). destruct (unsigned_in w2) as [[k w3]|].
        -- destruct U as (Hw3 & q3 & ->). destruct (tagNumber_at w3 q3 Hw3) as (t3 & d3 & -> & _). destruct w3 as [|x w3]; [cbn; do 3 eexists; reflexivity|].
           cbn [nth]. inversion Hw3 as [|? ? Hx _]; subst. destruct (meta_facts x Hx) as (-> & _). destruct (x mod 8 =? 7); cbn [negb].
           ++ do 2 eexists. split; [reflexivity|]. split; reflexivity.
           ++ do 3 eexists. reflexivity.
        -- destruct U as (v & b & q3 & x & ->). cbn. do 3 eexists. reflexivity.
      * destruct U as (v & b & q2 & x & ->). rewrite tagged_failed. destruct (unsigned_failed 0 b q2 x) as (v' & ->). cbn. do 3 eexists. reflexivity.
    + destruct HD as (E & x & ->). rewrite E. cbn. do 3 eexists. reflexivity.
  - match type of HD with if ?b then _ else _ => destruct b end.
    + destruct HD as (q & ->). destruct (tagged_at w1 q Hw1) as (t1 & l1 & d1 & -> & [(q1 & ->)|(E & x & ->)] & Hw2).
      * destruct (tagged_at (snd (hdr w1)) q1 Hw2) as (t2 & l2 & d2 & -> & _). do 2 eexists. split; [reflexivity|]. split; reflexivity.
      * rewrite tagged_failed, E. do 2 eexists. split; [reflexivity|]. split; reflexivity.
    + destruct HD as (E & x & ->). rewrite E, !tagged_failed. do 2 eexists. split; [reflexivity|]. split; reflexivity.
Qed.
Lemma error_taken : forall t r p, is_byte t -> t / 16 = 5 -> is_bytes r ->
  match error_octets r with
  | Some (c, k) => exists a d, dec_APDU (mkDec (t :: r) p None) = ((a, None), d) /\ p_eclass a = c /\ p_ecode a = k
  | None => exists a e d, dec_APDU (mkDec (t :: r) p None) = ((a, Some e), d)
  end.
Proof.
  intros t r p Ht Hty Hr. unfold dec_APDU. rewrite decode_u1_ok, (land240 t Ht), Hty. change (5 * 16) with 80.
  cbn [Z.eqb Pos.eqb pduComplexAck pduSimpleAck orb pduUnconfirmed pduConfirmed pduSegmentAck pduError].
  set (ty := mkApdu 80 _ _ _ 0 0 0 0 0 0 0 0 0 []).
  destruct r as [|inv r].
  { cbn. do 2 eexists. split; [reflexivity|]. split; reflexivity. }
  destruct r as [|svc w].
  { unfold dec_apduError. rewrite decode_u1_ok, decode_u_short by (simpl; lia). fold (err_body ty inv 0 (mkDec [] None (Some (short_err [])))).
    destruct (err_body_failed ty inv 0 [] None (short_err [])) as (a & -> & Hc & Hk). cbn. eauto. }
  inversion Hr as [|? ? _ Hr1]; subst. inversion Hr1 as [|? ? _ Hw]; subst.
  unfold dec_apduError. rewrite !decode_u1_ok. fold (err_body ty inv svc (mkDec w (Some svc) None)).
  exact (err_body_spec ty inv svc w (Some svc) Hw).
Qed.
