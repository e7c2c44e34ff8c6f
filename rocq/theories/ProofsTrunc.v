(** Arbitrary and truncated input: headers, panics, reported errors. *)
From Coq Require Import Lia ZifyBool ZifyNat.
From Verif Require Import ModelDec SpecWire SpecCodec ProofsWire ProofsTag ProofsApp.
Ltac Zify.zify_post_hook ::= Z.div_mod_to_equations.

Lemma decode_n_err : forall n b p x, decode_n n (mkDec b p (Some x)) = (None, mkDec b p (Some x)).
Proof. reflexivity. Qed.
Lemma decode_u_err : forall n old b p x, decode_u n old (mkDec b p (Some x)) = (old, mkDec b p (Some x)).
Proof. reflexivity. Qed.
Definition short_err (l : list Z) : gerr := match l with [] => EEOF | _ => EUnexpectedEOF end.
Lemma decode_n_short : forall n l p, (length l < n)%nat ->
  decode_n n (mkDec l p None) = (None, mkDec [] None (Some (short_err l))).
Proof.
  intros n l p H. unfold decode_n. cbn [derr dbuf]. destruct n; [lia|].
  replace (S n <=? length l)%nat with false by (symmetry; apply Nat.leb_gt; lia).
  destruct l; reflexivity.
Qed.
Lemma decode_u_short : forall n old l p, (length l < n)%nat ->
  decode_u n old (mkDec l p None) = (old, mkDec [] None (Some (short_err l))).
Proof. intros. unfold decode_u. rewrite decode_n_short by assumption. reflexivity. Qed.

(** a read error always leaves the buffer empty *)
Definition drained (d : dec) : Prop := derr d = None \/ dbuf d = [].

Lemma be_val2 : forall a b, be_val [a; b] = a * 256 + b.
Proof. intros. unfold be_val. cbn [fold_left]. ring. Qed.
Lemma be_val4 : forall a b c d, be_val [a; b; c; d] = ((a * 256 + b) * 256 + c) * 256 + d.
Proof. intros. unfold be_val. cbn [fold_left]. ring. Qed.

Lemma dec_value_hdr : forall meta r p num, is_byte meta ->
  exists d, dec_value meta (mkDec r p None) = (snd (fst (hdr_len num (meta mod 8) r)), d)
  /\ dbuf d = snd (hdr_len num (meta mod 8) r) /\ drained d /\ fst (fst (hdr_len num (meta mod 8) r)) = num.
Proof.
  intros meta r p num Hm. unfold dec_value.
  destruct (meta_facts meta Hm) as (Hcl & Hop & _ & Hev & _ & _ & Hld). rewrite Hcl, Hop, Hev, Hld.
  unfold hdr_len. destruct (meta mod 8 =? 5) eqn:E5.
  - destruct r as [|x r].
    + rewrite decode_u_short by (simpl; lia). cbn [Z.eqb]. eexists. split; [reflexivity|].
      repeat split; right; reflexivity.
    + rewrite decode_u1_ok. destruct (Z.eqb_spec x 255); [subst; change (255 =? 254) with false; cbv iota|].
      * destruct r as [|a [|b [|c [|e r]]]];
        try (rewrite decode_u_short by (simpl; lia); eexists; split; [reflexivity|]; repeat split; right; reflexivity).
        change (a :: b :: c :: e :: r) with ([a; b; c; e] ++ r). rewrite decode_u_ok by (simpl; congruence).
        rewrite be_val4. eexists. split; [reflexivity|]. repeat split. left; reflexivity.
      * destruct (x =? 254) eqn:E4.
        -- destruct r as [|a [|b r]];
           try (rewrite decode_u_short by (simpl; lia); eexists; split; [reflexivity|]; repeat split; right; reflexivity).
           change (a :: b :: r) with ([a; b] ++ r). rewrite decode_u_ok by (simpl; congruence).
           rewrite be_val2. eexists. split; [reflexivity|]. repeat split. left; reflexivity.
        -- eexists. split; [reflexivity|]. repeat split. left; reflexivity.
  - destruct (6 <=? meta mod 8) eqn:E6; cbn [orb].
    + eexists. split; [reflexivity|]. repeat split. left; reflexivity.
    + replace (meta mod 8 =? 7) with false by lia. eexists. split; [reflexivity|]. repeat split. left; reflexivity.
Qed.

Lemma hdr_spec : forall bs p, is_bytes bs ->
  exists meta d, tagNumberAndValue (mkDec bs p None) = ((fst (fst (hdr bs)), meta, snd (fst (hdr bs))), d)
  /\ dbuf d = snd (hdr bs) /\ drained d /\ is_byte meta.
Proof.
  intros bs p Hb. unfold tagNumberAndValue, tagNumber. destruct bs as [|b r].
  - rewrite decode_u_short by (simpl; lia). cbn. do 2 eexists. split; [reflexivity|].
    repeat split; try lia. right; reflexivity.
  - inversion Hb as [|? ? Hb1 Hb2]; subst. rewrite decode_u1_ok.
    destruct (meta_facts b Hb1) as (_ & _ & _ & Hev & Hx & Hs & Hld). rewrite Hx, Hs. cbn [hdr].
    unfold is_byte in Hb1.
    replace (b / 16 =? 15) with (240 <=? b) by lia.
    destruct (240 <=? b) eqn:E.
    + destruct r as [|n r].
      * rewrite decode_u_short by (simpl; lia).
        assert (Hv : dec_value b (mkDec [] None (Some (short_err []))) = (snd (fst (hdr_len 0 (b mod 8) [])), mkDec [] None (Some (short_err [])))
                     /\ hdr_len 0 (b mod 8) [] = (0, snd (fst (hdr_len 0 (b mod 8) [])), [])).
        { unfold dec_value, hdr_len. destruct (meta_facts b Hb1) as (Hcl & Hop & _). rewrite Hev, Hcl, Hop, Hld.
          destruct (b mod 8 =? 5) eqn:E5.
          - rewrite decode_u_err. split; reflexivity.
          - destruct (6 <=? b mod 8) eqn:E6; cbn [orb]; [split; reflexivity|].
            replace (b mod 8 =? 7) with false by lia. split; reflexivity. }
        destruct Hv as [Hv Hh]. rewrite Hv. do 2 eexists. rewrite Hh. cbn [fst snd].
        split; [reflexivity|]. repeat split; try lia. right; reflexivity.
      * rewrite decode_u1_ok. destruct (dec_value_hdr b r (Some n) n Hb1) as (d & E1 & E2 & E3 & E4).
        rewrite E1. do 2 eexists. rewrite E4. split; [reflexivity|]. auto.
    + destruct (dec_value_hdr b r (Some b) (b / 16) Hb1) as (d & E1 & E2 & E3 & E4).
      rewrite E1. do 2 eexists. rewrite E4. split; [reflexivity|]. auto.
Qed.

(** ** no value decoder other than strings and times can panic *)
Lemma bits_loop_nopanic : forall n i data b, 0 <= i -> i + Z.of_nat n <= zlen (bs_value b) ->
  bits_loop n i data b <> RPanic.
Proof.
  induction n; intros i data b Hi Hl; cbn [bits_loop]; [congruence|].
  unfold bs_SetByte. destruct (i <? maxBitStringBytes) eqn:E; cbn [rbind].
  - replace (i <? zlen (bs_value b)) with true by lia. cbn [rbind]. apply IHn; [lia|].
    cbn [bs_value]. unfold zlen in *. clear -Hl.
    assert (G : forall k (v : Z) l, length (upd k v l) = length l) by (induction k; intros v l; destruct l; simpl; auto).
    rewrite G. lia.
  - apply IHn; lia.
Qed.
Lemma zeros_len : forall n, 0 <= n -> zlen (zeros n) = n.
Proof. intros. unfold zlen, zeros. rewrite repeat_length. lia. Qed.
Lemma bitString_nopanic : forall len d, dec_bitString len d <> Panic.
Proof.
  intros len d. unfold dec_bitString. destruct (len <=? 0) eqn:E; [congruence|].
  destruct (decode_n (Z.to_nat len) d) as [r d']. cbv zeta.
  destruct (u8 (len - 1) <=? maxBitStringBytes) eqn:E2; [|congruence].
  destruct (bits_loop _ 0 _ _) eqn:E3; [congruence|]. exfalso. revert E3. apply bits_loop_nopanic; [lia|].
  unfold newBitString. cbn [bs_value]. unfold maxBitStringBytes, u8 in *.
  destruct (15 <? len - 1) eqn:E4; rewrite zeros_len by lia; lia.
Qed.

Lemma string_panic : forall d, drained d -> (dec_string (0 - 1) d = Panic <->
  match dbuf d with [] => True | c :: _ => c = 0 \/ c = 4 end).
Proof.
  intros [b p e] Hd. unfold dec_string. cbn [dbuf].
  destruct b as [|c b].
  - assert (E : exists d', decode_u 1 0 (mkDec [] p e) = (0, d')).
    { destruct e; [rewrite decode_u_err; eauto|]. rewrite decode_u_short by (simpl; lia). eauto. }
    destruct E as [d' E]. rewrite E. cbn. tauto.
  - destruct Hd as [Hd|Hd]; [|discriminate]. cbn [derr] in Hd. subst e. rewrite decode_u1_ok.
    destruct (Z.eqb_spec c 0); destruct (Z.eqb_spec c 4); cbn; split; intros; try tauto; try congruence; try lia.
Qed.
Lemma string_nopanic : forall n d, 0 <= n -> dec_string n d <> Panic.
Proof.
  intros n d Hn. unfold dec_string. destruct (decode_u 1 0 d) as [t d'].
  destruct ((t =? 0) || (t =? 4)); [|congruence]. replace (n <? 0) with false by lia.
  destruct (decode_n _ d'). congruence.
Qed.
Lemma buf_read_err : forall n d, 0 < n ->
  snd (fst (buf_read n d)) = match dbuf d with [] => Some EEOF | _ => None end.
Proof.
  intros n d Hn. unfold buf_read. destruct (dbuf d); [|reflexivity]. replace (n =? 0) with false by lia. reflexivity.
Qed.
Lemma time_panic : forall t n d, dec_time t n d = Panic <-> (1 <= n <= 3 /\ dbuf d <> []).
Proof.
  intros t n d. unfold dec_time. destruct (n <=? 0) eqn:E.
  - split; [congruence|lia].
  - pose proof (buf_read_err n d ltac:(lia)) as HE. destruct (buf_read n d) as [[data err] d'].
    cbn [fst snd] in HE. destruct (dbuf d); subst err.
    + split; [congruence|]. intros [_ H]. congruence.
    + destruct (n <? 4) eqn:E4; split; intros; try congruence; try lia. split; [lia|congruence].
Qed.

Lemma bytes_app : forall l1 l2, is_bytes (l1 ++ l2) <-> is_bytes l1 /\ is_bytes l2.
Proof. intros. apply Forall_app. Qed.

Lemma hdr_len_nonneg : forall num v r, 0 <= v -> is_bytes r -> 0 <= snd (fst (hdr_len num v r)).
Proof.
  intros num v r Hv Hr. unfold hdr_len.
  destruct (v =? 5); [|destruct (6 <=? v); cbn [fst snd]; lia].
  destruct r as [|x r]; [simpl; lia|]. inversion Hr as [|? ? Hx Hr2]; subst. unfold is_byte in Hx.
  destruct (x =? 254); [|destruct (x =? 255)].
  - destruct r as [|a [|b r]]; try (simpl; lia). inversion Hr2 as [|? ? Ha Hr3]; subst.
    inversion Hr3 as [|? ? Hb Hr4]; subst. unfold is_byte in *. cbn [fst snd]. lia.
  - destruct r as [|a [|b [|c [|e r]]]]; try (simpl; lia).
    inversion Hr2 as [|? ? Ha Hr3]; subst. inversion Hr3 as [|? ? Hb Hr4]; subst.
    inversion Hr4 as [|? ? Hc Hr5]; subst. inversion Hr5 as [|? ? He Hr6]; subst. unfold is_byte in *. cbn [fst snd]. lia.
  - simpl. lia.
Qed.
Lemma hdr_nonneg : forall bs, is_bytes bs -> 0 <= snd (fst (hdr bs)).
Proof.
  intros bs Hb. destruct bs as [|b r]; [simpl; lia|]. cbn [hdr].
  inversion Hb as [|? ? H1 H2]; subst. unfold is_byte in H1.
  destruct (b / 16 =? 15).
  - destruct r as [|n r]; [apply hdr_len_nonneg; [lia|constructor]|]. inversion H2; subst. apply hdr_len_nonneg; [lia|assumption].
  - apply hdr_len_nonneg; [lia|assumption].
Qed.

Lemma app_panic_iff : forall bs p, is_bytes bs ->
  (dec_AppData (mkDec bs p None) = Panic <-> value_panics bs).
Proof.
  intros bs p Hb. unfold dec_AppData, value_panics.
  destruct (hdr_spec bs p Hb) as (meta & d & E & Hd & Hdr & Hm). rewrite E. clear E.
  pose proof (hdr_nonneg bs Hb) as Hlen.
  destruct (hdr bs) as [[num len] r]. cbn [fst snd] in *.
  unfold AppDataOfTag; unfold_tags.
  destruct (Z.eqb_spec num 0); [subst; split; [congruence|lia]|].
  destruct (Z.eqb_spec num 1); [subst; split; [congruence|lia]|].
  destruct (Z.eqb_spec num 2); [subst; destruct (dec_unsigned len d); split; [congruence|lia]|].
  destruct (Z.eqb_spec num 3); [subst; destruct (dec_signed len d); split; [congruence|lia]|].
  destruct (Z.eqb_spec num 4); [subst; destruct (decode_u 4 0 d); split; [congruence|lia]|].
  destruct (Z.eqb_spec num 5); [subst; destruct (decode_u 8 0 d); split; [congruence|lia]|].
  destruct (Z.eqb_spec num 6); [subst; destruct (dec_octetstring len d); split; [congruence|lia]|].
  destruct (Z.eqb_spec num 7).
  { subst num. destruct (Z.eq_dec len 0) as [->|Hne].
    - pose proof (string_panic d Hdr) as HP. rewrite Hd in HP.
      destruct (dec_string (0 - 1) d) as [a s| |] eqn:ES; cbn [obind].
      + split; [congruence|]. intros [(_ & _ & H)|(H & _)]; [|lia]. apply HP in H. congruence.
      + split; [|reflexivity]. intros _. left. repeat split. apply HP. reflexivity.
      + split; [congruence|]. intros [(_ & _ & H)|(H & _)]; [|lia]. apply HP in H. congruence.
    - pose proof (string_nopanic (len - 1) d ltac:(lia)) as HN.
      destruct (dec_string (len - 1) d); cbn [obind]; split; try congruence; lia. }
  destruct (Z.eqb_spec num 8).
  { pose proof (bitString_nopanic len d). destruct (dec_bitString len d); cbn [obind]; split; try congruence; lia. }
  destruct (Z.eqb_spec num 9); [subst; destruct (dec_enumerated len d); split; [congruence|lia]|].
  destruct (Z.eqb_spec num 10); [subst; destruct (dec_date date0 len d); split; [congruence|lia]|].
  destruct (Z.eqb_spec num 11).
  { pose proof (time_panic time0 len d) as HT. rewrite Hd in HT.
    destruct (dec_time time0 len d); cbn [obind].
    - split; [congruence|]. intros [(H & _)|(_ & H)]; [lia|]. apply HT in H. congruence.
    - split; [|reflexivity]. intros _. right. split; [assumption|]. apply HT. reflexivity.
    - split; [congruence|]. intros [(H & _)|(_ & H)]; [lia|]. apply HT in H. congruence. }
  destruct (Z.eqb_spec num 12); [subst; destruct (dec_objectId d); split; [congruence|lia]|].
  split; [congruence|lia].
Qed.

(** ** truncation *)
(** a state in which some read has failed *)
Definition failed (d : dec) : Prop := derr d <> None.

Lemma failed_unsigned : forall n d, failed d -> 0 <= n -> exists v, dec_unsigned n d = (v, d).
Proof.
  intros n [b p [e|]] H Hn; [|unfold failed in H; simpl in H; congruence].
  unfold dec_unsigned, dec_unsigned24. rewrite !decode_u_err.
  destruct (n =? 1); [eauto|]. destruct (n =? 2); [eauto|]. destruct (n =? 3); [eauto|]. destruct (n =? 4); eauto.
Qed.
Lemma failed_signed : forall n d, failed d -> exists v, dec_signed n d = (v, d).
Proof.
  intros n [b p [e|]] H; [|unfold failed in H; simpl in H; congruence].
  unfold dec_signed, dec_signed24. rewrite !decode_u_err.
  destruct (n =? 1); [eauto|]. destruct (n =? 2); [eauto|]. destruct (n =? 3); [eauto|]. destruct (n =? 4); eauto.
Qed.

(** a header cut short *)
Lemma tag_cut : forall num len pre suf p, 0 <= num < 15 -> 0 <= len < 2 ^ 32 ->
  spec_tag 0 num len = pre ++ suf -> suf <> [] ->
  exists d, failed d /\ dbuf d = [] /\
  ((pre = [] /\ exists m, tagNumberAndValue (mkDec pre p None) = ((0, m, 0), d))
   \/ (pre <> [] /\ 5 <= len /\ exists m, tagNumberAndValue (mkDec pre p None) = ((num, m, 0), d))).
Proof.
  intros num len pre suf p Hn Hl E Hs. unfold spec_tag in E.
  replace (num <? 15) with true in E by lia. cbn [app] in E.
  destruct pre as [|b pre].
  - eexists. repeat split. 3:{ left. split; [reflexivity|]. eexists. reflexivity. } unfold failed; simpl; congruence. reflexivity.
  - cbn [app] in E. injection E as Eb E.
    destruct (len <? 5) eqn:E5.
    { symmetry in E. apply app_eq_nil in E. tauto. }
    assert (Hb : is_byte b) by (unfold is_byte; lia).
    unfold tagNumberAndValue, tagNumber.
    destruct (meta_facts b Hb) as (_ & _ & _ & Hev & Hx & Hsr & _).
    rewrite decode_u1_ok, Hx, Hsr.
    replace (240 <=? b) with false by lia. replace (b / 16) with num by lia.
    unfold dec_value. rewrite Hev. replace (b mod 8 =? 5) with true by lia.
    assert (C : (pre = []) \/ (exists x pre', pre = x :: pre')) by (destruct pre; eauto).
    destruct C as [->|(x & pre' & ->)].
    + rewrite decode_u_short by (simpl; lia). cbn [Z.eqb].
      eexists. repeat split. 3:{ right. split; [congruence|]. split; [lia|]. eexists. reflexivity. }
      unfold failed; simpl; congruence. reflexivity.
    + rewrite decode_u1_ok. destruct (len <? 254) eqn:E254.
      * cbn [app] in E. injection E as _ E. symmetry in E. apply app_eq_nil in E. tauto.
      * destruct (len <? 65536) eqn:E65.
        -- cbn [app] in E. injection E as Ex E. subst x. change (254 =? 255) with false. rewrite Z.eqb_refl.
           assert (length pre' < 2)%nat.
           { apply (f_equal (@length Z)) in E. cbn [length] in E. rewrite app_length in E.
             destruct suf; [congruence|cbn [length] in E; lia]. }
           rewrite decode_u_short by assumption.
           eexists. repeat split. 3:{ right. split; [congruence|]. split; [lia|]. eexists. reflexivity. }
           unfold failed; simpl; congruence. reflexivity.
        -- cbn [app] in E. injection E as Ex E. subst x. rewrite Z.eqb_refl.
           assert (length pre' < 4)%nat.
           { apply (f_equal (@length Z)) in E. cbn [length] in E. rewrite app_length in E.
             destruct suf; [congruence|cbn [length] in E; lia]. }
           rewrite decode_u_short by assumption.
           eexists. repeat split. 3:{ right. split; [congruence|]. split; [lia|]. eexists. reflexivity. }
           unfold failed; simpl; congruence. reflexivity.
Qed.

(** splitting a proper prefix of header ++ body *)
Lemma prefix_split : forall (h b pre suf : list Z), h ++ b = pre ++ suf -> suf <> [] ->
  (exists t, h = pre ++ t /\ t <> []) \/ (exists bp, pre = h ++ bp /\ b = bp ++ suf).
Proof.
  induction h as [|x h IH]; intros b pre suf E Hs.
  - right. exists pre. split; [reflexivity|]. exact E.
  - destruct pre as [|y pre].
    + left. exists (x :: h). split; [reflexivity|congruence].
    + cbn [app] in E. injection E as -> E. destruct (IH b pre suf E Hs) as [(t & -> & Ht)|(bp & -> & Hb)].
      * left. exists t. auto.
      * right. exists bp. auto.
Qed.
Lemma len_lt : forall (b bp suf : list Z), b = bp ++ suf -> suf <> [] -> (length bp < length b)%nat.
Proof. intros b bp suf -> H. rewrite app_length. destruct suf; [congruence|simpl; lia]. Qed.

(** fewer octets than announced *)
Lemma short_unsigned : forall n bp p, 1 <= n <= 4 -> (length bp < Z.to_nat n)%nat -> is_bytes bp ->
  exists v d, dec_unsigned n (mkDec bp p None) = (v, d) /\ failed d.
Proof.
  intros n bp p Hn Hl Hb. unfold dec_unsigned.
  assert (C : n = 1 \/ n = 2 \/ n = 3 \/ n = 4) by lia.
  destruct C as [->|[->|[->| ->]]]; cbn [Z.eqb Pos.eqb]; simpl in Hl;
  try (rewrite decode_u_short by lia; do 2 eexists; split; [reflexivity|unfold failed; simpl; congruence]).
  unfold dec_unsigned24. destruct bp as [|a [|b [|c bp]]]; cbn [length] in Hl; try lia;
  rewrite ?decode_u1_ok; rewrite decode_u_short by (simpl; lia); rewrite ?decode_u_err;
  do 2 eexists; (split; [reflexivity|unfold failed; simpl; congruence]).
Qed.
Lemma short_signed : forall n bp p, 1 <= n <= 4 -> (length bp < Z.to_nat n)%nat -> is_bytes bp ->
  exists v d, dec_signed n (mkDec bp p None) = (v, d) /\ failed d.
Proof.
  intros n bp p Hn Hl Hb. unfold dec_signed.
  assert (C : n = 1 \/ n = 2 \/ n = 3 \/ n = 4) by lia.
  destruct C as [->|[->|[->| ->]]]; cbn [Z.eqb Pos.eqb]; simpl in Hl;
  try (rewrite decode_u_short by lia; do 2 eexists; split; [reflexivity|unfold failed; simpl; congruence]).
  unfold dec_signed24. destruct bp as [|a [|b [|c bp]]]; cbn [length] in Hl; try lia;
  rewrite ?decode_u1_ok; rewrite decode_u_short by (simpl; lia); rewrite ?decode_u_err;
  do 2 eexists; (split; [reflexivity|unfold failed; simpl; congruence]).
Qed.

Lemma reported_err : forall v d, failed d -> reported (Val (v, derr d) d).
Proof. intros v d H. left. exact H. Qed.

Lemma app_failed : forall tag d, failed d -> 0 <= tag <= 12 -> tag <> 7 -> reported (AppDataOfTag tag 0 d).
Proof.
  intros tag d Hf Ht H7. unfold AppDataOfTag; unfold_tags.
  destruct (Z.eqb_spec tag 0); [right; exact Hf|].
  destruct (Z.eqb_spec tag 1); [left; exact Hf|].
  destruct (Z.eqb_spec tag 2). { destruct (failed_unsigned 0 d Hf ltac:(lia)) as [v E]. rewrite E. left; exact Hf. }
  destruct (Z.eqb_spec tag 3). { destruct (failed_signed 0 d Hf) as [v E]. rewrite E. left; exact Hf. }
  destruct d as [b p [e|]]; [|unfold failed in Hf; simpl in Hf; congruence].
  rewrite !decode_u_err.
  destruct (Z.eqb_spec tag 4); [left; exact Hf|].
  destruct (Z.eqb_spec tag 5); [left; exact Hf|].
  destruct (Z.eqb_spec tag 6); [left; exact Hf|].
  destruct (Z.eqb_spec tag 7); [lia|].
  destruct (Z.eqb_spec tag 8); [left; exact Hf|].
  destruct (Z.eqb_spec tag 9); [left; exact Hf|].
  destruct (Z.eqb_spec tag 10); [left; exact Hf|].
  destruct (Z.eqb_spec tag 11); [left; exact Hf|].
  destruct (Z.eqb_spec tag 12); [left; exact Hf|].
  lia.
Qed.

Lemma header_cut_reported : forall num len pre suf p, 0 <= num <= 12 -> num <> 7 \/ pre = [] -> 0 <= len < 2 ^ 32 ->
  spec_tag 0 num len = pre ++ suf -> suf <> [] -> reported (dec_AppData (mkDec pre p None)).
Proof.
  intros num len pre suf p Hn H7 Hl E Hs.
  destruct (tag_cut num len pre suf p ltac:(lia) Hl E Hs) as (d & Hf & _ & [[-> [m Em]]|[Hne [_ [m Em]]]]);
  unfold dec_AppData; rewrite Em.
  - apply app_failed; [assumption|lia|lia].
  - apply app_failed; [assumption|lia|]. destruct H7; [assumption|contradiction].
Qed.

Ltac cut_tac E Hs := destruct (prefix_split _ _ _ _ E Hs) as [(t & Et & Hte)|(bp & -> & Eb)].

Lemma spec_unsigned_len : forall v, length (spec_unsigned v) = Z.to_nat (usize v).
Proof. intros. unfold spec_unsigned. apply octets_length. Qed.
Lemma spec_signed_len : forall v, length (spec_signed v) = Z.to_nat (ssize v).
Proof. intros. unfold spec_signed. apply octets_length. Qed.

Lemma trunc_reported : forall v pre suf p, conforming v -> trunc_reports v pre ->
  spec_app v = pre ++ suf -> suf <> [] -> reported (dec_AppData (mkDec pre p None)).
Proof.
  intros v pre suf p Hr Ht E Hs.
  assert (TA : forall id len body p, 0 <= id < 256 -> 0 <= len < 2 ^ 32 ->
    dec_AppData (mkDec (spec_tag 0 id len ++ body) p None)
    = AppDataOfTag id len (mkDec body (Some (last (spec_tag 0 id len) 0)) None)).
  { intros. rewrite <- (app_nil_r (_ ++ body)). rewrite tag_app by assumption. rewrite app_nil_r. reflexivity. }
  destruct v; simpl in Hr, Ht; try contradiction; cbn [spec_app] in E.
  - apply (header_cut_reported 0 0 pre suf); [lia|lia|lia|assumption|assumption].
  - apply (header_cut_reported 1 (if b then 1 else 0) pre suf); [lia|lia|destruct b; lia|assumption|assumption].
  - pose proof (usize_bound n Hr). cut_tac E Hs.
    + apply (header_cut_reported 2 (usize n) pre t); [lia|lia|lia|assumption|assumption].
    + rewrite TA by lia. unfold AppDataOfTag; unfold_tags; cbn [Z.eqb Pos.eqb].
      assert (Hb : is_bytes bp).
      { assert (is_bytes (bp ++ suf)) by (rewrite <- Eb; apply octets_bytes). apply bytes_app in H0. tauto. }
      pose proof (len_lt _ _ _ Eb Hs) as Hlt. rewrite spec_unsigned_len in Hlt.
      destruct (short_unsigned (usize n) bp (Some (last (spec_tag 0 2 (usize n)) 0)) H Hlt Hb) as (w & d & Ew & Hf).
      rewrite Ew. left. exact Hf.
  - pose proof (ssize_bound n Hr). cut_tac E Hs.
    + apply (header_cut_reported 3 (ssize n) pre t); [lia|lia|lia|assumption|assumption].
    + rewrite TA by lia. unfold AppDataOfTag; unfold_tags; cbn [Z.eqb Pos.eqb].
      assert (Hb : is_bytes bp).
      { assert (is_bytes (bp ++ suf)) by (rewrite <- Eb; apply octets_bytes). apply bytes_app in H0. tauto. }
      pose proof (len_lt _ _ _ Eb Hs) as Hlt. rewrite spec_signed_len in Hlt.
      destruct (short_signed (ssize n) bp (Some (last (spec_tag 0 3 (ssize n)) 0)) H Hlt Hb) as (w & d & Ew & Hf).
      rewrite Ew. left. exact Hf.
  - cut_tac E Hs.
    + apply (header_cut_reported 4 4 pre t); [lia|lia|lia|assumption|assumption].
    + rewrite TA by lia. unfold AppDataOfTag; unfold_tags; cbn [Z.eqb Pos.eqb].
      pose proof (len_lt _ _ _ Eb Hs) as Hlt. rewrite octets_length in Hlt.
      rewrite decode_u_short by assumption. left. simpl. congruence.
  - cut_tac E Hs.
    + apply (header_cut_reported 5 8 pre t); [lia|lia|lia|assumption|assumption].
    + rewrite TA by lia. unfold AppDataOfTag; unfold_tags; cbn [Z.eqb Pos.eqb].
      pose proof (len_lt _ _ _ Eb Hs) as Hlt. rewrite octets_length in Hlt.
      rewrite decode_u_short by assumption. left. simpl. congruence.
  - destruct Hr as [Hb Hl]. assert (0 <= zlen l) by (unfold zlen; lia). cut_tac E Hs.
    + apply (header_cut_reported 6 (zlen l) pre t); [lia|lia|lia|assumption|assumption].
    + rewrite TA by lia. unfold AppDataOfTag; unfold_tags; cbn [Z.eqb Pos.eqb]. unfold dec_octetstring.
      pose proof (len_lt _ _ _ Eb Hs) as Hlt.
      rewrite decode_n_short by (unfold zlen; lia). left. simpl. congruence.
  - destruct Hr as [Hb Hl]. assert (0 <= zlen l) by (unfold zlen; lia). cut_tac E Hs.
    + destruct Ht as [->|Ht].
      * apply (header_cut_reported 7 (zlen l + 1) [] t); [lia|right; reflexivity|lia|assumption|assumption].
      * exfalso. rewrite Et in Ht. unfold zlen in Ht. rewrite app_length in Ht. destruct t; [congruence|simpl in Ht; lia].
    + rewrite TA by lia. unfold AppDataOfTag; unfold_tags; cbn [Z.eqb Pos.eqb]. unfold dec_string.
      replace (zlen l + 1 - 1) with (zlen l) by lia. replace (zlen l <? 0) with false by lia.
      destruct bp as [|c bp].
      * rewrite decode_u_short by (simpl; lia). cbn [Z.eqb orb]. rewrite decode_n_err. left. simpl. congruence.
      * cbn [app] in Eb. injection Eb as <- Eb. rewrite decode_u1_ok. cbn [Z.eqb orb].
        pose proof (len_lt _ _ _ Eb Hs) as Hlt.
        rewrite decode_n_short by (unfold zlen; lia). left. simpl. congruence.
  - pose proof (usize_bound n Hr). cut_tac E Hs.
    + apply (header_cut_reported 9 (usize n) pre t); [lia|lia|lia|assumption|assumption].
    + rewrite TA by lia. unfold AppDataOfTag; unfold_tags; cbn [Z.eqb Pos.eqb]. unfold dec_enumerated.
      assert (Hb : is_bytes bp).
      { assert (is_bytes (bp ++ suf)) by (rewrite <- Eb; apply octets_bytes). apply bytes_app in H0. tauto. }
      pose proof (len_lt _ _ _ Eb Hs) as Hlt. rewrite spec_unsigned_len in Hlt.
      destruct (short_unsigned (usize n) bp (Some (last (spec_tag 0 9 (usize n)) 0)) H Hlt Hb) as (w & d & Ew & Hf).
      rewrite Ew. left. exact Hf.
  - change (spec_tag 0 10 4) with [164] in E. cbn [app] in E. destruct pre as [|a [|b pre]].
    + first [left; vm_compute; congruence|right; vm_compute; congruence].
    + injection E as <- E. first [left; vm_compute; congruence|right; vm_compute; congruence].
    + exfalso. unfold zlen in Ht. cbn [length] in Ht. lia.
  - change (spec_tag 0 11 4) with [180] in E. cbn [app] in E. destruct pre as [|a [|b pre]].
    + first [left; vm_compute; congruence|right; vm_compute; congruence].
    + injection E as <- E. first [left; vm_compute; congruence|right; vm_compute; congruence].
    + exfalso. unfold zlen in Ht. cbn [length] in Ht. lia.
  - cut_tac E Hs.
    + apply (header_cut_reported 12 4 pre t); [lia|lia|lia|assumption|assumption].
    + rewrite TA by lia. unfold AppDataOfTag; unfold_tags; cbn [Z.eqb Pos.eqb]. unfold dec_objectId.
      pose proof (len_lt _ _ _ Eb Hs) as Hlt. unfold spec_oid in Hlt. rewrite octets_length in Hlt.
      rewrite decode_u_short by assumption. left. simpl. congruence.
Qed.

(** bit strings *)
Lemma trunc_bits : forall l pre suf p, zlen l < 2 ^ 32 -> spec_bits l = pre ++ suf -> suf <> [] ->
  reported (dec_AppData (mkDec pre p None)).
Proof.
  intros l pre suf p Hl E Hs. unfold spec_bits in E.
  assert (H0 : 0 <= bit_octets l < 2 ^ 32 - 1) by (unfold bit_octets, zlen in *; lia).
  cut_tac E Hs.
  - apply (header_cut_reported 8 (bit_octets l + 1) pre t); [lia|lia|lia|assumption|assumption].
  - rewrite <- (app_nil_r (_ ++ bp)). rewrite tag_app by lia. rewrite app_nil_r.
    unfold AppDataOfTag; unfold_tags; cbn [Z.eqb Pos.eqb].
    set (d0 := mkDec bp _ None).
    pose proof (bitString_nopanic (bit_octets l + 1) d0) as HN.
    pose proof (len_lt _ _ _ Eb Hs) as Hlt. cbn [length] in Hlt.
    assert (HP : forall k l, length (pack k l) = k).
    { induction k; intros m; [reflexivity|]. cbn [pack]. destruct (pack8 8 m). cbn [length]. rewrite IHk. reflexivity. }
    rewrite HP in Hlt.
    unfold dec_bitString in *. replace (bit_octets l + 1 <=? 0) with false in * by lia.
    unfold d0 in *. rewrite decode_n_short in * by lia. cbv zeta in *.
    destruct (u8 (bit_octets l + 1 - 1) <=? maxBitStringBytes).
    + destruct (bits_loop _ 0 _ _); [|congruence]. left. simpl. congruence.
    + left. simpl. congruence.
Qed.

(** a string cut inside its header crashes; a date or time cut after its first
    octet is read as if zeros followed *)
Lemma trunc_string_panics : forall l pre suf p, is_bytes l -> zlen l + 1 < 2 ^ 32 -> pre <> [] -> suf <> [] ->
  spec_tag 0 7 (zlen l + 1) = pre ++ suf -> dec_AppData (mkDec pre p None) = Panic.
Proof.
  intros l pre suf p Hb Hl Hp Hs E. assert (0 <= zlen l) by (unfold zlen; lia).
  destruct (tag_cut 7 (zlen l + 1) pre suf p ltac:(lia) ltac:(lia) E Hs) as (d & Hf & _ & [[-> _]|[_ [_ [m Em]]]]); [congruence|].
  unfold dec_AppData. rewrite Em. unfold AppDataOfTag; unfold_tags; cbn [Z.eqb Pos.eqb]. unfold dec_string.
  destruct d as [b q [e|]]; [|unfold failed in Hf; simpl in Hf; congruence].
  rewrite decode_u_err. reflexivity.
Qed.
Lemma trunc_padded : forall v pre suf, match v with VDate d => valid_date d | VTime t => readable v | _ => False end ->
  spec_app v = pre ++ suf -> suf <> [] -> 1 < zlen pre ->
  exists w, reads pre w [] /\ reads (pre ++ repeat 0 (length suf)) w [].
Proof.
  intros v pre suf Hr E Hs Hl. destruct v; try contradiction; cbn [spec_app] in E.
  - change (spec_tag 0 10 4) with [164] in E. cbn [app] in E.
    destruct pre as [|a [|b pre]]; try (exfalso; unfold zlen in Hl; cbn [length] in Hl; lia).
    cbn [app] in E; injection E as <- <- E.
    destruct pre as [|c pre]; [|cbn [app] in E; injection E as <- E; destruct pre as [|e pre]; [|cbn [app] in E; injection E as <- E; destruct pre as [|f pre]]];
    [..|exfalso; cbn [app] in E; injection E as _ E; symmetry in E; apply app_eq_nil in E; tauto];
    cbn [app] in E; subst suf; eexists; (split; eexists; (split; [reflexivity|split; reflexivity])).
  - change (spec_tag 0 11 4) with [180] in E. cbn [app] in E.
    destruct pre as [|a [|b pre]]; try (exfalso; unfold zlen in Hl; cbn [length] in Hl; lia).
    cbn [app] in E; injection E as <- <- E.
    destruct pre as [|c pre]; [|cbn [app] in E; injection E as <- E; destruct pre as [|e pre]; [|cbn [app] in E; injection E as <- E; destruct pre as [|f pre]]];
    [..|exfalso; cbn [app] in E; injection E as _ E; symmetry in E; apply app_eq_nil in E; tauto];
    cbn [app] in E; subst suf; eexists; (split; eexists; (split; [reflexivity|split; reflexivity])).
Qed.

Lemma trunc_exact : forall v pre suf, conforming v -> spec_app v = pre ++ suf -> suf <> [] ->
  (reported (dec_AppData (newDecoder pre)) <-> trunc_reports v pre)
  /\ (~ trunc_reports v pre ->
      match v with
      | VString _ => dec_AppData (newDecoder pre) = Panic
      | _ => exists w, reads pre w [] /\ reads (pre ++ repeat 0 (length suf)) w []
      end).
Proof.
  intros v pre suf Hc E Hs.
  assert (U : ~ trunc_reports v pre ->
      match v with
      | VString _ => dec_AppData (newDecoder pre) = Panic
      | _ => exists w, reads pre w [] /\ reads (pre ++ repeat 0 (length suf)) w []
      end).
  { intros N. destruct v; cbn [trunc_reports] in N; try (exfalso; apply N; exact I).
    - destruct Hc as [Hb Hl]. cbn [spec_app] in E. cut_tac E Hs.
      + apply (trunc_string_panics l pre t); [assumption|lia|intros ->; apply N; left; reflexivity|assumption|exact Et].
      + exfalso. apply N. right. unfold zlen. rewrite app_length. lia.
    - apply (trunc_padded (VDate d) pre suf Hc E Hs). unfold zlen in *. lia.
    - apply (trunc_padded (VTime t) pre suf Hc E Hs). unfold zlen in *. lia. }
  split; [|exact U]. split; [|intros T; apply (trunc_reported v pre suf); assumption].
  intros R. assert (D : trunc_reports v pre \/ ~ trunc_reports v pre).
  { destruct v; cbn [trunc_reports]; try (left; exact I); try lia.
    destruct pre; [left; left; reflexivity|].
    destruct (Z.le_gt_cases (zlen (spec_tag 0 7 (zlen l + 1))) (zlen (z :: pre))); [left; right; assumption|right].
    intros [?|?]; [discriminate|lia]. }
  destruct D as [D|D]; [exact D|exfalso]. specialize (U D).
  destruct v; cbn [trunc_reports] in D; try (apply D; exact I).
  1: { rewrite U in R. exact R. }
  all: destruct U as (w & (dd & Ed & _ & Hn) & _); rewrite Ed in R; cbn in R; destruct R; congruence.
Qed.
