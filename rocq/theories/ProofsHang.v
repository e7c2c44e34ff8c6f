(** The ReadPropertyMultiple decoder returns within as many rounds as there are
    octets, or never. *)
From Coq Require Import Lia ZifyBool ZifyNat.
From Verif Require Import ModelClient SpecWire SpecObs ProofsWire ProofsTrunc ProofsTerm.

(** the run [F] of a loop, by its fuel: never done, or done with one result, at the
    latest with fuel [n] *)
Definition decided {A} (n : nat) (F : nat -> out dec A) : Prop :=
  (forall f, F f = Fuel) \/ exists r, r <> Fuel /\ (forall f, F f = Fuel \/ F f = r) /\ forall f, (n <= f)%nat -> F f = r.
Lemma decided_now : forall A n (r : out dec A), r <> Fuel -> decided n (fun _ => r).
Proof. intros. right. exists r. auto. Qed.
Lemma decided_ext : forall A n (F G : nat -> out dec A), (forall f, F f = G f) -> decided n G -> decided n F.
Proof.
  intros A n F G E [H|(r & Hr & H1 & H2)]; [left; intro; rewrite E; auto|]. right. exists r. split; [assumption|].
  split; intros; rewrite E; auto.
Qed.
Lemma decided_step : forall A n m (F G : nat -> out dec A), F O = Fuel -> (forall f, F (S f) = G f) -> decided m G -> (m < n)%nat -> decided n F.
Proof.
  intros A n m F G H0 HS [H|(r & Hr & H1 & H2)] Hn.
  - left. intros [|f]; [assumption|]. rewrite HS. apply H.
  - right. exists r. split; [assumption|]. split.
    + intros [|f]; [left; assumption|]. rewrite HS. apply H1.
    + intros [|f] Hf; [lia|]. rewrite HS. apply H2. lia.
Qed.
Lemma decided_le : forall A n m (F : nat -> out dec A), decided m F -> (m <= n)%nat -> decided n F.
Proof. intros A n m F [H|(r & Hr & H1 & H2)] Hn; [left; assumption|]. right. exists r. split; [assumption|]. split; [assumption|]. intros. apply H2. lia. Qed.
Lemma decided_bind : forall A B n (F : nat -> out dec A) (K : nat -> A -> dec -> out dec B), decided n F ->
  (forall f a d, F f = Val a d -> decided n (fun f => K f a d)) -> decided n (fun f => obind (F f) (K f)).
Proof.
  intros A B n F K [H|(r & Hr & H1 & H2)] HK.
  - left. intro f. rewrite H. reflexivity.
  - destruct r as [a d| |]; [| |congruence].
    + destruct (HK n a d (H2 n (Nat.le_refl n))) as [G|(r & Gr & G1 & G2)].
      * left. intro f. destruct (H1 f) as [E|E]; rewrite E; [reflexivity|]. apply G.
      * right. exists r. split; [assumption|]. split.
        -- intro f. destruct (H1 f) as [E|E]; rewrite E; [left; reflexivity|]. apply G1.
        -- intros f Hf. rewrite (H2 f Hf). apply G2. assumption.
    + right. exists Panic. split; [discriminate|]. split.
      * intro f. destruct (H1 f) as [E|E]; rewrite E; [left|right]; reflexivity.
      * intros f Hf. rewrite (H2 f Hf). reflexivity.
Qed.
(** a part without loop *)
Lemma decided_pure : forall A B n (m : out dec A) (K : nat -> A -> dec -> out dec B), m <> Fuel ->
  (forall a d, m = Val a d -> decided n (fun f => K f a d)) -> decided n (fun f => obind m (K f)).
Proof.
  intros A B n m K Hm HK. destruct m as [a d| |]; [|apply (decided_now B n Panic); discriminate|congruence]. cbn [obind]. apply HK. reflexivity.
Qed.

(** ** at the end of the input *)
Lemma tag_at_error : forall d e, derr d = Some e -> tagNumber d = ((0, 0), d).
Proof. intros [b p x] e H. cbn in H. subst x. reflexivity. Qed.
Lemma tnv_at_error : forall d e, derr d = Some e -> tagNumberAndValue d = ((0, 0, 0), d).
Proof. intros d e H. unfold tagNumberAndValue. rewrite (tag_at_error d e H). reflexivity. Qed.
Lemma tnv_at_end : forall p, tagNumberAndValue (mkDec [] p None) = ((0, 0, 0), mkDec [] None (Some EEOF)).
Proof. reflexivity. Qed.
Lemma tag_at_end : forall p, tagNumber (mkDec [] p None) = ((0, 0), mkDec [] None (Some EEOF)).
Proof. reflexivity. Qed.
Lemma drained_cases : forall d, drained d -> (exists e, derr d = Some e) \/ (exists p, d = mkDec [] p None) \/ (derr d = None /\ dbuf d <> []).
Proof.
  intros [b p e] [H|H]; cbn in H; subst.
  - destruct b; [right; left; eauto|right; right; split; [reflexivity|discriminate]].
  - destruct e; [left; cbn; eauto|right; left; eauto].
Qed.

(** ** the date and time loop *)
Lemma ts_error : forall d e, derr d = Some e -> forall f dt tm, ts_loop f dt tm d = Fuel.
Proof.
  intros d e H f. induction f as [|f IH]; intros dt tm; [reflexivity|]. cbn [ts_loop]. rewrite (tnv_at_error d e H).
  exact (IH dt tm).
Qed.
Lemma skip_shrinks : forall n d, shrinks d (dec_Skip n d).
Proof.
  intros n d. unfold dec_Skip. pose proof (buf_read_shrinks n d) as H. destruct (buf_read n d) as [[data err] d1]. destruct H as (H1 & H2 & H3 & H4).
  split; [|cbn; lia]. intro HD. destruct err; [right; cbn; apply H3; congruence|left; reflexivity].
Qed.
Lemma dec_time_fuel : forall t n d, dec_time t n d <> Fuel.
Proof.
  intros. unfold dec_time. destruct (n <=? 0); [discriminate|]. destruct (buf_read n d) as [[? err] ?].
  destruct err; [discriminate|]. destruct (n <? 4); discriminate.
Qed.
Lemma ts_decided : forall n d dt tm, drained d -> (length (dbuf d) < n)%nat -> decided n (fun f => ts_loop f dt tm d).
Proof.
  induction n as [|n IH]; intros d dt tm HD Hn; [lia|].
  destruct (drained_cases d HD) as [[e E]|[[p ->]|[E1 E2]]].
  - left. intro f. apply (ts_error d e E).
  - left. intros [|f]; [reflexivity|]. cbn [ts_loop]. rewrite tnv_at_end. cbn. apply (ts_error _ EEOF). reflexivity.
  - pose proof (tnv_shrinks d) as [S1 S2]. pose proof (tnv_eats d E1 E2) as SE.
    destruct (tagNumberAndValue d) as [[[tag meta] len] d1] eqn:ET. cbn [snd] in *. specialize (S1 HD).
    set (G := fun f => if meta_isClosing meta && (tag =? 2) then Val (dt, tm) d1
      else if tag =? tagDate then let '(dt, d) := dec_date dt len d1 in ts_loop f dt tm d
      else if tag =? tagTime then obind (dec_time tm len d1) (fun tm d => ts_loop f dt tm d)
      else if 0 <? len then ts_loop f dt tm (dec_Skip len d1) else ts_loop f dt tm d1).
    apply (decided_step _ (S n) n _ G); [reflexivity| | |lia].
    + intro f. cbn [ts_loop]. rewrite ET. reflexivity.
    + unfold G. destruct (meta_isClosing meta && (tag =? 2)); [apply decided_now; discriminate|].
      destruct (tag =? tagDate).
      { pose proof (dec_date_shrinks dt len d1) as [D1 D2]. destruct (dec_date dt len d1) as [dt' d2]. cbn [snd] in *. apply IH; [auto|lia]. }
      destruct (tag =? tagTime).
      { apply decided_pure; [apply dec_time_fuel|]. intros tm' d2 E. pose proof (dec_time_shrinks tm len d1) as S. rewrite E in S. destruct S. apply IH; [auto|lia]. }
      destruct (0 <? len); [|apply IH; [auto|lia]].
      pose proof (skip_shrinks len d1) as [D1 D2]. apply IH; [auto|lia].
Qed.
Lemma ts_shrinks : forall f dt tm d, out_shrinks d (ts_loop f dt tm d).
Proof.
  induction f as [|f IH]; intros dt tm d; [exact I|]. cbn [ts_loop].
  pose proof (tnv_shrinks d) as S. destruct (tagNumberAndValue d) as [[[tag meta] len] d1]. cbn [snd] in S.
  assert (Q : forall r : out dec (date * time), out_shrinks d1 r -> out_shrinks d r).
  { intros [a d2| |] H; cbn in *; auto. eapply shrinks_trans; eassumption. }
  destruct (meta_isClosing meta && (tag =? 2)); [exact S|]. apply Q.
  destruct (tag =? tagDate).
  { pose proof (dec_date_shrinks dt len d1) as D. destruct (dec_date dt len d1) as [dt' d2]. cbn [snd] in D. specialize (IH dt' tm d2).
    destruct (ts_loop f dt' tm d2); cbn in *; auto. eapply shrinks_trans; eassumption. }
  destruct (tag =? tagTime).
  { pose proof (dec_time_shrinks tm len d1) as D. destruct (dec_time tm len d1) as [tm' d2| |]; cbn [obind]; [|exact I|exact I]. specialize (IH dt tm' d2).
    destruct (ts_loop f dt tm' d2); cbn in *; auto. eapply shrinks_trans; eassumption. }
  destruct (0 <? len); [|apply IH]. pose proof (skip_shrinks len d1) as D. specialize (IH dt tm (dec_Skip len d1)).
  destruct (ts_loop f dt tm (dec_Skip len d1)); cbn in *; auto. eapply shrinks_trans; eassumption.
Qed.

(** ** the value loop, entered by reading a tag *)
Definition vnext (f : nat) (obj : object) (ptype : Z) (objs : list object) (array : list value) (d : dec) :=
  let '((tag, meta), d) := tagNumber d in
  if meta_isClosing meta && (tag =? 4) then Val (objs, array, None) d else val_loop f obj ptype tag meta objs array d.
(** one round, [next] being the rest *)
Definition vbody (ts : dec -> out dec (date * time)) (next : list object -> list value -> dec -> out dec (list object * list value * option gerr))
  (obj : object) (ptype tag meta : Z) (objs : list object) (array : list value) (d : dec) : out dec (list object * list value * option gerr) :=
    if meta_isContextSpecific meta then
      if meta_isClosing meta then next objs array (dec_UnreadByte d)
      else if meta_isOpening meta then
        if tag =? 2 then
          obind (ts d) (fun r d => next objs (array ++ [VDateTime (fst r) (snd r)]) d)
        else next objs array d
      else
        let objs := objs ++ [obj] in
        let '(lenValue, d) := dec_value meta d in
        let tag := tagTypeInContext ptype tag in
        if tag =? maxTag then
          if 0 <? lenValue then
            let '(_, err, d) := buf_read lenValue d in
            match err with
            | Some err => Val (objs, array, Some err) d
            | None => next objs array d
            end
          else next objs array d
        else
          obind (AppDataOfTag tag lenValue d) (fun r d =>
          match r with
          | (_, Some err) => Val (objs, array, Some err) d
          | (v, None) => next objs (array ++ [v]) d
          end)
    else
      let '(len, d) := dec_value meta d in
      obind (AppDataOfTag tag len d) (fun r d =>
      match r with
      | (_, Some err) => Val (objs, array, Some err) d
      | (v, None) => next objs (array ++ [v]) d
      end).
Lemma val_loop_body : forall f obj ptype tag meta objs array d,
  val_loop (S f) obj ptype tag meta objs array d = vbody (ts_loop f date0 time0) (vnext f obj ptype) obj ptype tag meta objs array d.
Proof. reflexivity. Qed.
Lemma vnext_error : forall obj ptype d e, derr d = Some e -> forall f objs array, vnext f obj ptype objs array d = Fuel.
Proof.
  intros obj ptype d e H f. induction f as [|f IH]; intros objs array; unfold vnext; rewrite (tag_at_error d e H); [reflexivity|].
  change (meta_isClosing 0 && (0 =? 4)) with false. cbv iota. rewrite val_loop_body. unfold vbody.
  change (meta_isContextSpecific 0) with false. cbv iota. change (dec_value 0 d) with (0, d). cbn. apply IH.
Qed.
Lemma read_drained : forall n d, let '(_, err, d') := buf_read n d in drained d -> drained d'.
Proof.
  intros n d. pose proof (buf_read_shrinks n d) as H. destruct (buf_read n d) as [[data err] d1]. destruct H as (H1 & H2 & H3 & H4).
  intros [E|E]; [left; congruence|right; auto].
Qed.
(** a round that does not put an octet back *)
Lemma body_decided : forall n obj ptype tag meta objs array d, drained d -> (length (dbuf d) < n)%nat ->
  (meta_isContextSpecific meta && meta_isClosing meta = false) ->
  (forall objs array d', drained d' -> (length (dbuf d') <= length (dbuf d))%nat -> decided n (fun f => vnext f obj ptype objs array d')) ->
  decided n (fun f => vbody (ts_loop f date0 time0) (vnext f obj ptype) obj ptype tag meta objs array d).
Proof.
  intros n obj ptype tag meta objs array d HD Hn HC IH. unfold vbody.
  assert (HA : forall t l d1 os ar, shrinks d d1 -> decided n (fun f => obind (AppDataOfTag t l d1) (fun r d =>
      match r with (_, Some err) => Val (os, ar, Some err) d | (v, None) => vnext f obj ptype os (ar ++ [v]) d end))).
  { intros t l d1 os ar [S1 S2]. apply decided_pure; [apply AppDataOfTag_fuel|]. intros [v [err|]] d2 E; [apply decided_now; discriminate|].
    pose proof (AppDataOfTag_shrinks t l d1) as S. rewrite E in S. destruct S. apply IH; [auto|lia]. }
  destruct (meta_isContextSpecific meta) eqn:EC.
  - cbn [andb] in HC. rewrite HC. destruct (meta_isOpening meta).
    + destruct (tag =? 2); [|apply IH; auto].
      apply decided_bind; [apply ts_decided; assumption|]. intros f [dt tm] d2 E. pose proof (ts_shrinks f date0 time0 d) as S. rewrite E in S. destruct S. apply IH; auto.
    + pose proof (dec_value_shrinks meta d) as S. destruct (dec_value meta d) as [lv d1]. cbn [snd] in S.
      destruct (_ =? maxTag); [|apply HA; assumption]. destruct S as [S1 S2].
      destruct (0 <? lv); [|apply IH; auto].
      pose proof (buf_read_shrinks lv d1) as R. pose proof (read_drained lv d1) as RD. destruct (buf_read lv d1) as [[data err] d2]. destruct R as (R1 & _).
      destruct err; [apply decided_now; discriminate|]. apply IH; [auto|lia].
  - pose proof (dec_value_shrinks meta d) as S. destruct (dec_value meta d) as [lv d1]. cbn [snd] in S. apply HA. assumption.
Qed.
(** a closing tag of one octet other than 4 is put back and read again for ever *)
Lemma closing_again : forall b r p obj ptype, meta_isContextSpecific b = true -> meta_isClosing b = true -> meta_isExtendedTagNumber b = false ->
  (Z.shiftr b 4 =? 4) = false -> forall f objs array, vnext f obj ptype objs array (mkDec (b :: r) p None) = Fuel.
Proof.
  intros b r p obj ptype HC HL HX H4 f. revert p. induction f as [|f IH]; intros p objs array; unfold vnext, tagNumber; rewrite decode_u1_ok, HX, HL, H4; cbn [andb]; [reflexivity|].
  rewrite val_loop_body. unfold vbody. rewrite HC, HL. unfold dec_UnreadByte. cbn [dprev dbuf derr]. apply IH.
Qed.
(** what a tag that closes something leaves, with its last octet put back *)
Lemma unread_tag : forall d tag meta d1, drained d -> tagNumber d = ((tag, meta), d1) -> meta_isClosing meta = true ->
  drained (dec_UnreadByte d1) /\ (length (dbuf (dec_UnreadByte d1)) <= length (dbuf d))%nat.
Proof.
  intros d tag meta d1 HD ET HL. destruct (drained_cases d HD) as [[e E]|[[p ->]|[E1 E2]]].
  - rewrite (tag_at_error d e E) in ET. injection ET as <- <- <-. discriminate.
  - rewrite tag_at_end in ET. injection ET as <- <- <-. discriminate.
  - destruct d as [[|b r] p e]; [cbn in E2; congruence|]. cbn in E1. subst e. unfold tagNumber in ET. rewrite decode_u1_ok in ET.
    destruct (meta_isExtendedTagNumber b).
    + destruct r as [|t r].
      * cbn in ET. injection ET as <- <- <-. cbn. split; [right; reflexivity|lia].
      * rewrite decode_u1_ok in ET. injection ET as <- <- <-. cbn. split; [left; reflexivity|lia].
    + injection ET as <- <- <-. cbn. split; [left; reflexivity|lia].
Qed.
Lemma vnext_decided : forall n obj ptype objs array d, drained d -> (length (dbuf d) < n)%nat -> decided n (fun f => vnext f obj ptype objs array d).
Proof.
  induction n as [|n IH]; intros obj ptype objs array d HD Hn; [lia|].
  destruct (drained_cases d HD) as [[e E]|[[p ->]|[E1 E2]]].
  - left. intro f. apply (vnext_error obj ptype d e E).
  - left. intro f. unfold vnext. rewrite tag_at_end. exact (vnext_error obj ptype (mkDec [] None (Some EEOF)) EEOF eq_refl f objs array).
  - destruct d as [[|b r] p e]; [cbn in E2; congruence|]. cbn in E1. subst e. pose proof (eq_refl : derr (mkDec (b :: r) p None) = None) as E1.
    pose proof (tagNumber_shrinks (mkDec (b :: r) p None)) as [S1 S2]. pose proof (tagNumber_eats (mkDec (b :: r) p None) E1 E2) as SE.
    destruct (tagNumber (mkDec (b :: r) p None)) as [[tag meta] d1] eqn:ET. cbn [snd] in *. specialize (S1 HD).
    destruct (meta_isClosing meta && (tag =? 4)) eqn:EC.
    { apply (decided_ext _ _ _ (fun _ => Val (objs, array, None) d1)); [|apply decided_now; discriminate]. intro f. unfold vnext. rewrite ET, EC. reflexivity. }
    assert (HB : decided n (fun f => vbody (ts_loop f date0 time0) (vnext f obj ptype) obj ptype tag meta objs array d1) \/
                 forall f, vnext f obj ptype objs array (mkDec (b :: r) p None) = Fuel).
    { destruct (meta_isContextSpecific meta && meta_isClosing meta) eqn:EB.
      - apply andb_true_iff in EB. destruct EB as [EX EL]. rewrite EL in EC. cbn [andb] in EC.
        unfold tagNumber in ET. rewrite decode_u1_ok in ET. destruct (meta_isExtendedTagNumber b) eqn:EE.
        + left. destruct r as [|t r].
          * cbn in ET. injection ET as <- <- <-. unfold vbody. rewrite EX, EL. left. intro f. apply (vnext_error _ _ _ EEOF). reflexivity.
          * rewrite decode_u1_ok in ET. injection ET as <- <- <-. unfold vbody. rewrite EX, EL. apply IH; [left; reflexivity|cbn in *; lia].
        + injection ET as <- <- <-. right. intro f. apply closing_again; assumption.
      - left. apply body_decided; [assumption|lia|assumption|]. intros. apply IH; [assumption|lia]. }
    destruct HB as [HB|HB]; [|left; assumption].
    eapply decided_step; [| |exact HB|lia].
    + unfold vnext. rewrite ET, EC. reflexivity.
    + intro f. unfold vnext. rewrite ET, EC. apply val_loop_body.
Qed.
(** what one round leaves to the next *)
Lemma body_val : forall f obj ptype tag meta objs array d0 d r d',
  (forall objs array d r d', drained d -> vnext f obj ptype objs array d = Val r d' -> drained d' /\ (length (dbuf d') <= length (dbuf d))%nat \/ snd r <> None) ->
  tagNumber d0 = ((tag, meta), d) -> drained d0 ->
  vbody (ts_loop f date0 time0) (vnext f obj ptype) obj ptype tag meta objs array d = Val r d' -> drained d' /\ (length (dbuf d') <= length (dbuf d0))%nat \/ snd r <> None.
Proof.
  intros f obj ptype tag meta objs array d0 d r d' IH ET HD0 H. unfold vbody in H.
  pose proof (tagNumber_shrinks d0) as [S1 S2]. rewrite ET in *. cbn [snd] in *. specialize (S1 HD0).
  assert (IH' : forall objs array d2, shrinks d d2 -> vnext f obj ptype objs array d2 = Val r d' -> drained d' /\ (length (dbuf d') <= length (dbuf d0))%nat \/ snd r <> None).
  { intros os ar d2 [T1 T2] HV. destruct (IH _ _ _ _ _ (T1 S1) HV) as [[Q1 Q2]|Q]; [left; split; [assumption|lia]|right; assumption]. }
  assert (HA : forall t l d1 os ar, shrinks d d1 -> obind (AppDataOfTag t l d1) (fun r d =>
      match r with (_, Some err) => Val (os, ar, Some err) d | (v, None) => vnext f obj ptype os (ar ++ [v]) d end) = Val r d' ->
      drained d' /\ (length (dbuf d') <= length (dbuf d0))%nat \/ snd r <> None).
  { intros t l d1 os ar T HV. pose proof (AppDataOfTag_shrinks t l d1) as S. destruct (AppDataOfTag t l d1) as [[v [err|]] d2| |]; cbn [obind] in HV; try discriminate.
    - injection HV as <- <-. right. discriminate.
    - eapply IH'; [|eassumption]. eapply shrinks_trans; eassumption. }
  destruct (meta_isContextSpecific meta) eqn:EC.
  - destruct (meta_isClosing meta) eqn:EL.
    { destruct (unread_tag d0 tag meta d HD0 ET EL) as [U1 U2]. destruct (IH _ _ _ _ _ U1 H) as [[Q1 Q2]|Q]; [left; split; [assumption|lia]|right; assumption]. }
    destruct (meta_isOpening meta).
    + destruct (tag =? 2); [|eapply IH'; [apply shrinks_refl|eassumption]].
      pose proof (ts_shrinks f date0 time0 d) as S. destruct (ts_loop f date0 time0 d) as [x d2| |]; cbn [obind] in H; try discriminate. eapply IH'; eassumption.
    + pose proof (dec_value_shrinks meta d) as S. destruct (dec_value meta d) as [lv d1]. cbn [snd] in S.
      destruct (_ =? maxTag); [|eapply HA; eassumption].
      destruct (0 <? lv); [|eapply IH'; eassumption].
      pose proof (buf_read_shrinks lv d1) as R. pose proof (read_drained lv d1) as RD. destruct (buf_read lv d1) as [[data err] d2]. destruct R as (R1 & _).
      destruct err; [injection H as <- <-; right; discriminate|]. eapply IH'; [|eassumption]. eapply shrinks_trans; [eassumption|]. split; [assumption|lia].
  - pose proof (dec_value_shrinks meta d) as S. destruct (dec_value meta d) as [lv d1]. cbn [snd] in S. eapply HA; eassumption.
Qed.
Lemma vnext_val : forall f obj ptype objs array d r d', drained d -> vnext f obj ptype objs array d = Val r d' ->
  drained d' /\ (length (dbuf d') <= length (dbuf d))%nat \/ snd r <> None.
Proof.
  induction f as [|f IH]; intros obj ptype objs array d r d' HD H; unfold vnext in H;
    destruct (tagNumber d) as [[tag meta] d1] eqn:ET; pose proof (tagNumber_shrinks d) as [S1 S2]; rewrite ET in *; cbn [snd] in *;
    (destruct (meta_isClosing meta && (tag =? 4)); [injection H as <- <-; left; auto|]).
  - discriminate.
  - rewrite val_loop_body in H. eapply body_val; [|exact ET|exact HD|exact H]. intros. eapply IH; eassumption.
Qed.
(** the value loop, entered behind the opening tag with the first tag read *)
Lemma val_val : forall f obj ptype tag meta objs array d0 d r d', tagNumber d0 = ((tag, meta), d) -> drained d0 ->
  val_loop f obj ptype tag meta objs array d = Val r d' -> drained d' /\ (length (dbuf d') <= length (dbuf d0))%nat \/ snd r <> None.
Proof.
  intros [|f] obj ptype tag meta objs array d0 d r d' ET HD H; [discriminate|]. rewrite val_loop_body in H.
  eapply body_val; [|exact ET|exact HD|exact H]. intros. eapply vnext_val; eassumption.
Qed.
Lemma val_decided : forall n obj ptype tag meta objs array d0 d, tagNumber d0 = ((tag, meta), d) -> drained d0 ->
  (S (length (dbuf d0)) < n)%nat -> decided n (fun f => val_loop f obj ptype tag meta objs array d).
Proof.
  intros n obj ptype tag meta objs array d0 d ET HD Hn.
  pose proof (tagNumber_shrinks d0) as [S1 S2]. rewrite ET in *. cbn [snd] in *. specialize (S1 HD).
  apply (decided_step _ n (n - 1) _ (fun f => vbody (ts_loop f date0 time0) (vnext f obj ptype) obj ptype tag meta objs array d)); [reflexivity|intro; apply val_loop_body| |lia].
  destruct (meta_isContextSpecific meta && meta_isClosing meta) eqn:EB.
  - apply andb_true_iff in EB. destruct EB as [EX EL]. destruct (unread_tag d0 tag meta d HD ET EL) as [U1 U2].
    unfold vbody. rewrite EX, EL. apply vnext_decided; [assumption|lia].
  - apply body_decided; [assumption|lia|assumption|]. intros. apply vnext_decided; [assumption|lia].
Qed.

(** ** the property loop *)
Lemma tag_nonzero : forall d tag meta d1, drained d -> tagNumber d = ((tag, meta), d1) -> tag <> 0 -> (length (dbuf d1) < length (dbuf d))%nat.
Proof.
  intros d tag meta d1 HD ET HT. destruct (drained_cases d HD) as [[e E]|[[p ->]|[E1 E2]]].
  - rewrite (tag_at_error d e E) in ET. injection ET as <- <- <-. congruence.
  - rewrite tag_at_end in ET. injection ET as <- <- <-. congruence.
  - pose proof (tagNumber_eats d E1 E2) as H. rewrite ET in H. exact H.
Qed.
Lemma enum_shrinks : forall n d, shrinks d (snd (dec_enumerated n d)).
Proof. intros. unfold dec_enumerated. apply dec_unsigned_shrinks. Qed.
Lemma bacError_fuel : forall d, dec_bacError d <> Fuel.
Proof.
  intro d. unfold dec_bacError. pose proof (dec_AppData_fuel d) as H. destruct (dec_AppData d) as [[v e] d1| |]; cbn [obind]; [|discriminate|congruence].
  destruct v, e; try discriminate. pose proof (dec_AppData_fuel d1) as H1. destruct (dec_AppData d1) as [[v e] d2| |]; cbn [obind]; [|discriminate|congruence].
  destruct v, e; discriminate.
Qed.
Lemma drained_more : forall d, drained d -> (0 <? dlen d) = true -> derr d = None /\ dbuf d <> [].
Proof.
  intros [b p e] H HL. unfold dlen in HL. cbn in *. destruct H as [H|H]; cbn in H; subst.
  - split; [reflexivity|]. destruct b; [discriminate|discriminate].
  - discriminate.
Qed.
(** the tag behind the property identifier or the array index *)
Definition third (length tag meta : Z) (d : dec) : Z * Z * (Z * Z) * dec :=
  if tag =? 3 then
    let '(len, d) := dec_value meta d in
    let '(idx, d) := dec_unsigned len d in
    let '(tm, d) := tagNumber d in
    (idx, len, tm, d)
  else (ArrayAll, length, (tag, meta), d).
Lemma third_from : forall length tag meta d1 d2, drained d1 -> tagNumber d1 = ((tag, meta), d2) ->
  exists dp, drained dp /\ (List.length (dbuf dp) <= List.length (dbuf d1))%nat /\ tagNumber dp = (snd (fst (third length tag meta d2)), snd (third length tag meta d2)).
Proof.
  intros length tag meta d1 d2 HD ET. unfold third. destruct (tag =? 3).
  - pose proof (tagNumber_shrinks d1) as [S1 S2]. rewrite ET in *. cbn [snd] in *. specialize (S1 HD).
    pose proof (dec_value_shrinks meta d2) as [T1 T2]. destruct (dec_value meta d2) as [len d3]. cbn [snd] in *. specialize (T1 S1).
    pose proof (dec_unsigned_shrinks len d3) as [U1 U2]. destruct (dec_unsigned len d3) as [idx d4]. cbn [snd] in *. specialize (U1 T1).
    exists d4. split; [assumption|]. split; [lia|]. destruct (tagNumber d4) as [tm d5]. reflexivity.
  - exists d1. cbn [fst snd]. auto.
Qed.
Lemma prop_loop_S : forall f obj tag meta length objs d, prop_loop (S f) obj tag meta length objs d =
    if (0 <? dlen d) && (tag =? 2) && negb (meta_isClosing meta) then
      if negb (meta_isContextSpecific meta) then Val (obj, objs, Some EWrongTagContext) d
      else
      let '(ptype, d) := dec_enumerated length d in
      let '((tag, meta), d) := tagNumber d in
      if tag =? 2 then prop_loop f obj tag meta length objs d
      else if (tag =? 3) && negb (meta_isContextSpecific meta) then Val (obj, objs, Some EWrongTagContext) d
      else
      let '(idx, length, (tag, meta), d) := third length tag meta d in
      if (tag =? 4) && meta_isOpening meta then
        let '((tag, meta), d) := tagNumber d in
        match derr d with
        | Some err => Val (obj, objs, Some err) d
        | None =>
          obind (val_loop f obj ptype tag meta objs [] d) (fun r d =>
          match r with
          | (objs, _, Some err) => Val (obj, objs, Some err) d
          | (objs, array, None) =>
            let obj := add_prop obj (mkProp ptype idx (collapse array) 0) in
            let '((tag, meta, length), d) := tagNumberAndValue d in
            prop_loop f obj tag meta length objs d
          end)
        end
      else if (tag =? 5) && meta_isOpening meta then
        obind (dec_bacError d) (fun r d =>
        match r with
        | (_, _, Some err) => Val (obj, objs, Some err) d
        | (class, code, None) =>
          let '(_, d) := tagNumber d in
          Val (obj, objs, Some (EBacnet class code)) d
        end)
      else Val (obj, objs, Some (EIncorrectTag 4 tag)) d
    else Val (obj, objs, None) d.
Proof. reflexivity. Qed.
Lemma prop_decided : forall n obj tag meta length objs d, drained d -> (S (List.length (dbuf d)) < n)%nat -> decided n (fun f => prop_loop f obj tag meta length objs d).
Proof.
  induction n as [|n IH]; intros obj tag meta length objs d HD Hn; [lia|].
  eapply decided_step; [reflexivity|intro f; apply prop_loop_S| |apply Nat.lt_succ_diag_r].
  destruct (0 <? dlen d) eqn:EL; cbn [andb]; [|apply decided_now; discriminate].
  destruct (drained_more d HD EL) as [E1 E2].
  destruct ((tag =? 2) && negb (meta_isClosing meta)); [|apply decided_now; discriminate].
  destruct (negb (meta_isContextSpecific meta)); [apply decided_now; discriminate|].
  pose proof (enum_shrinks length d) as [S1 S2]. destruct (dec_enumerated length d) as [ptype d1]. cbn [snd] in *. specialize (S1 HD).
  destruct (tagNumber d1) as [[tag1 meta1] d2] eqn:ET.
  destruct (tag1 =? 2) eqn:E22.
  { pose proof (tagNumber_shrinks d1) as [T1 T2]. rewrite ET in *. cbn [snd] in *.
    assert (TN : tag1 <> 0) by lia. pose proof (tag_nonzero d1 tag1 meta1 d2 S1 ET TN). apply IH; [auto|lia]. }
  destruct ((tag1 =? 3) && negb (meta_isContextSpecific meta1)); [apply decided_now; discriminate|].
  destruct (third_from length tag1 meta1 d1 d2 S1 ET) as (dp & P1 & P2 & P3).
  destruct (third length tag1 meta1 d2) as [[[idx len3] [tag3 meta3]] d3]. cbn [fst snd] in P3.
  pose proof (tagNumber_shrinks dp) as [Q1 Q2]. rewrite P3 in *. cbn [snd] in *. specialize (Q1 P1).
  destruct ((tag3 =? 4) && meta_isOpening meta3) eqn:E4.
  - assert (TN : tag3 <> 0) by lia. pose proof (tag_nonzero dp tag3 meta3 d3 P1 P3 TN) as HL.
    destruct (tagNumber d3) as [[tag4 meta4] d4] eqn:ET4. destruct (derr d4); [apply decided_now; discriminate|].
    apply decided_bind.
    + eapply val_decided; [exact ET4|exact Q1|lia].
    + intros f [[objs' array] [err|]] d5 HV; [apply decided_now; discriminate|]. cbv zeta.
      destruct (val_val _ _ _ _ _ _ _ _ _ _ _ ET4 Q1 HV) as [[V1 V2]|V]; [|cbn in V; congruence].
      pose proof (tnv_shrinks d5) as [W1 W2]. destruct (tagNumberAndValue d5) as [[[tag6 meta6] len6] d6]. cbn [snd] in *. apply IH; [auto|lia].
  - destruct ((tag3 =? 5) && meta_isOpening meta3); [|apply decided_now; discriminate].
    apply decided_pure; [apply bacError_fuel|]. intros [[class code] [err|]] d4 _; [apply decided_now; discriminate|].
    destruct (tagNumber d4). apply decided_now. discriminate.
Qed.
Lemma prop_val : forall f obj tag meta length objs d obj' objs' d', drained d -> prop_loop f obj tag meta length objs d = Val (obj', objs', None) d' ->
  drained d' /\ (List.length (dbuf d') <= List.length (dbuf d))%nat.
Proof.
  induction f as [|f IH]; intros obj tag meta length objs d obj' objs' d' HD H; [discriminate|]. rewrite prop_loop_S in H.
  destruct (0 <? dlen d) eqn:EL; cbn [andb] in H; [|injection H as <- <- <-; auto].
  destruct ((tag =? 2) && negb (meta_isClosing meta)); [|injection H as <- <- <-; auto].
  destruct (negb (meta_isContextSpecific meta)); [discriminate|].
  pose proof (enum_shrinks length d) as [S1 S2]. destruct (dec_enumerated length d) as [ptype d1]. cbn [snd] in *. specialize (S1 HD).
  destruct (tagNumber d1) as [[tag1 meta1] d2] eqn:ET.
  destruct (tag1 =? 2) eqn:E22.
  { pose proof (tagNumber_shrinks d1) as [T1 T2]. rewrite ET in *. cbn [snd] in *.
    destruct (IH _ _ _ _ _ _ _ _ _ (T1 S1) H). split; [assumption|lia]. }
  destruct ((tag1 =? 3) && negb (meta_isContextSpecific meta1)); [discriminate|].
  destruct (third_from length tag1 meta1 d1 d2 S1 ET) as (dp & P1 & P2 & P3).
  destruct (third length tag1 meta1 d2) as [[[idx len3] [tag3 meta3]] d3]. cbn [fst snd] in P3.
  pose proof (tagNumber_shrinks dp) as [Q1 Q2]. rewrite P3 in *. cbn [snd] in *. specialize (Q1 P1).
  destruct ((tag3 =? 4) && meta_isOpening meta3) eqn:E4.
  - destruct (tagNumber d3) as [[tag4 meta4] d4] eqn:ET4. destruct (derr d4); [discriminate|].
    destruct (val_loop f obj ptype tag4 meta4 objs [] d4) as [[[objs5 array] [err|]] d5| |] eqn:HV; cbn [obind] in H; try discriminate. cbv zeta in H.
    destruct (val_val _ _ _ _ _ _ _ _ _ _ _ ET4 Q1 HV) as [[V1 V2]|V]; [|cbn in V; congruence].
    pose proof (tnv_shrinks d5) as [W1 W2]. destruct (tagNumberAndValue d5) as [[[tag6 meta6] len6] d6]. cbn [snd] in *.
    destruct (IH _ _ _ _ _ _ _ _ _ (W1 V1) H). split; [assumption|lia].
  - destruct ((tag3 =? 5) && meta_isOpening meta3); [|discriminate].
    destruct (dec_bacError d3) as [[[class code] [err|]] d4| |]; cbn [obind] in H; try discriminate. destruct (tagNumber d4). discriminate.
Qed.

(** ** the object loop *)
Lemma tnv_nonzero : forall d tag meta len d1, drained d -> tagNumberAndValue d = ((tag, meta, len), d1) -> tag <> 0 -> (length (dbuf d1) < length (dbuf d))%nat.
Proof.
  intros d tag meta len d1 HD ET HT. destruct (drained_cases d HD) as [[e E]|[[p ->]|[E1 E2]]].
  - rewrite (tnv_at_error d e E) in ET. injection ET as <- <- <- <-. congruence.
  - rewrite tnv_at_end in ET. injection ET as <- <- <- <-. congruence.
  - pose proof (tnv_eats d E1 E2) as H. rewrite ET in H. exact H.
Qed.
Lemma obj_decided : forall n oid objs d, drained d -> (length (dbuf d) < n)%nat -> decided n (fun f => obj_loop f oid objs d).
Proof.
  induction n as [|n IH]; intros oid objs d HD Hn; [lia|].
  eapply decided_step; [reflexivity|intro f; cbn [obj_loop]; reflexivity| |apply Nat.lt_succ_diag_r].
  destruct (derr d) as [e|] eqn:ED; [apply decided_now; discriminate|].
  destruct (0 <? dlen d) eqn:EL; [|apply decided_now; discriminate].
  destruct (drained_more d HD EL) as [E1 E2].
  pose proof (tnv_shrinks d) as [S1 _]. pose proof (tnv_eats d E1 E2) as S2. destruct (tagNumberAndValue d) as [[[tag meta] len] d1]. cbn [snd] in *. specialize (S1 HD).
  destruct (negb (tag =? 0)); [apply decided_now; discriminate|].
  destruct (negb (meta_isContextSpecific meta)); [apply decided_now; discriminate|].
  pose proof (dec_objectId_shrinks d1) as [T1 T2]. destruct (dec_objectId d1) as [o d2]. cbn [snd] in *. specialize (T1 S1). cbv zeta.
  destruct (tagNumber d2) as [[tag2 meta2] d3] eqn:ET2. destruct (negb (tag2 =? 1)) eqn:EN1; [apply decided_now; discriminate|].
  destruct (negb (meta_isOpening meta2)); [apply decided_now; discriminate|].
  assert (TN : tag2 <> 0) by lia. pose proof (tag_nonzero d2 tag2 meta2 d3 T1 ET2 TN) as HL.
  pose proof (tagNumber_shrinks d2) as [U1 _]. rewrite ET2 in U1. cbn [snd] in U1. specialize (U1 T1).
  destruct (tagNumberAndValue d3) as [[[tag4 meta4] len4] d4] eqn:ET4. destruct (negb (tag4 =? 2)) eqn:EN2; [apply decided_now; discriminate|].
  assert (TN4 : tag4 <> 0) by lia. pose proof (tnv_nonzero d3 tag4 meta4 len4 d4 U1 ET4 TN4) as HL4.
  pose proof (tnv_shrinks d3) as [W1 _]. rewrite ET4 in W1. cbn [snd] in W1. specialize (W1 U1).
  apply decided_bind; [apply prop_decided; [assumption|lia]|].
  intros f [[obj' objs'] [err|]] d5 HV; [apply decided_now; discriminate|].
  destruct (prop_val _ _ _ _ _ _ _ _ _ _ W1 HV). apply IH; [assumption|lia].
Qed.
Lemma rpm_decided : forall n d, drained d -> (length (dbuf d) < n)%nat -> decided n (fun f => dec_ReadMultiplePropertyAck f d).
Proof.
  intros n d HD Hn. unfold dec_ReadMultiplePropertyAck.
  apply (decided_bind _ _ n (fun f => obj_loop f (mkOid 0 0) [] d) (fun _ r d => match r with (objs, Some err) => Val (objs, Some err) (set_derr (Some err) d) | (objs, None) => Val (objs, derr d) d end));
    [apply obj_decided; assumption|].
  intros f [objs [err|]] d1 _; apply decided_now; discriminate.
Qed.

Lemma apduError_shrinks : forall a d, shrinks d (snd (dec_apduError a d)).
Proof.
  intros a d. unfold dec_apduError.
  pose proof (decode_u_shrinks 1 0 d) as S1. destruct (decode_u 1 0 d) as [inv d1]. cbn [snd] in S1.
  pose proof (decode_u_shrinks 1 0 d1) as S2. destruct (decode_u 1 0 d1) as [svc d2]. cbn [snd] in S2.
  pose proof (tagNumber_shrinks d2) as S3. destruct (tagNumber d2) as [[t m] d3]. cbn [snd] in S3.
  assert (Q : shrinks d d3) by (eapply shrinks_trans; [eassumption|]; eapply shrinks_trans; eassumption).
  destruct (meta_isOpening m).
  - pose proof (tnv_shrinks d3) as S4. destruct (tagNumberAndValue d3) as [[[? ?] v4] d4]. cbn [snd] in S4.
    pose proof (dec_unsigned_shrinks v4 d4) as S5. destruct (dec_unsigned v4 d4) as [c d5]. cbn [snd] in S5.
    pose proof (tnv_shrinks d5) as S6. destruct (tagNumberAndValue d5) as [[[? ?] v6] d6]. cbn [snd] in S6.
    pose proof (dec_unsigned_shrinks v6 d6) as S7. destruct (dec_unsigned v6 d6) as [k d7]. cbn [snd] in S7.
    pose proof (tagNumber_shrinks d7) as S8. destruct (tagNumber d7) as [[t8 m8] d8]. cbn [snd] in S8.
    assert (shrinks d d8) by (repeat (eapply shrinks_trans; [eassumption|]); apply shrinks_refl).
    cbv zeta. destruct (negb (meta_isClosing m8)); assumption.
  - pose proof (tnv_shrinks d3) as S4. destruct (tagNumberAndValue d3) as [[[? ?] v4] d4]. cbn [snd] in S4.
    pose proof (tnv_shrinks d4) as S6. destruct (tagNumberAndValue d4) as [[[? ?] v6] d6]. cbn [snd] in S6.
    cbn [snd]. repeat (eapply shrinks_trans; [eassumption|]); apply shrinks_refl.
Qed.
Lemma APDU_shrinks : forall d, shrinks d (snd (dec_APDU d)) /\ (derr d = None -> dbuf d <> [] -> (length (dbuf (snd (dec_APDU d))) < length (dbuf d))%nat).
Proof.
  intro d. unfold dec_APDU. pose proof (decode_u_shrinks 1 0 d) as S1.
  assert (HE : derr d = None -> dbuf d <> [] -> (length (dbuf (snd (decode_u 1 0 d))) < length (dbuf d))%nat).
  { destruct d as [[|b r] p e]; cbn; [congruence|]. intros -> _. cbn. lia. }
  destruct (decode_u 1 0 d) as [meta d1]. cbn [snd] in *.
  assert (Q : forall d2, shrinks d1 d2 -> shrinks d d2 /\ (derr d = None -> dbuf d <> [] -> (length (dbuf d2) < length (dbuf d))%nat)).
  { intros d2 S2. split; [eapply shrinks_trans; eassumption|]. intros A B. specialize (HE A B). destruct S2. lia. }
  cbv zeta. repeat match goal with |- context [if ?c then _ else _] => lazymatch c with (?x =? ?y) || _ => destruct c | (Z.land _ _ =? _) => destruct c end end; cbn [snd]; try (apply Q; apply shrinks_refl).
  - pose proof (decode_u_shrinks 1 0 d1) as S2. destruct (decode_u 1 0 d1) as [inv d2]. cbn [snd] in S2.
    pose proof (decode_u_shrinks 1 0 d2) as S3. destruct (decode_u 1 0 d2) as [svc d3]. cbn [snd] in *. apply Q. eapply shrinks_trans; eassumption.
  - pose proof (decode_u_shrinks 1 0 d1) as S2. destruct (decode_u 1 0 d1) as [inv d2]. cbn [snd] in S2.
    pose proof (decode_n_shrinks (length (dbuf d2)) d2) as S3. destruct (decode_n (length (dbuf d2)) d2) as [r d3]. cbn [snd] in *. apply Q. eapply shrinks_trans; eassumption.
  - pose proof (decode_u_shrinks 1 0 d1) as S2. destruct (decode_u 1 0 d1) as [inv d2]. cbn [snd] in S2.
    pose proof (decode_u_shrinks 1 0 d2) as S3. destruct (decode_u 1 0 d2) as [svc d3]. cbn [snd] in *.
    assert (S4 : shrinks d3 (snd (if checkMask meta apduMaskSegmented then decode_u 1 0 d3 else (0, d3)))) by (destruct (checkMask meta apduMaskSegmented); [apply decode_u_shrinks|apply shrinks_refl]).
    destruct (if checkMask meta apduMaskSegmented then decode_u 1 0 d3 else (0, d3)) as [sq d4]. cbn [snd] in *.
    assert (S5 : shrinks d4 (snd (if checkMask meta apduMaskSegmented then decode_u 1 0 d4 else (0, d4)))) by (destruct (checkMask meta apduMaskSegmented); [apply decode_u_shrinks|apply shrinks_refl]).
    destruct (if checkMask meta apduMaskSegmented then decode_u 1 0 d4 else (0, d4)) as [win d5]. cbn [snd] in *.
    pose proof (decode_u_shrinks 1 0 d5) as S6. destruct (decode_u 1 0 d5) as [sv d6]. cbn [snd] in *.
    assert (S7 : shrinks d1 d6) by (repeat (eapply shrinks_trans; [eassumption|]); apply shrinks_refl).
    destruct (0 <? length (dbuf d6))%nat; [|apply Q; assumption].
    pose proof (decode_n_shrinks (length (dbuf d6)) d6) as S8. destruct (decode_n (length (dbuf d6)) d6) as [r d7]. cbn [snd] in *. apply Q. eapply shrinks_trans; eassumption.
  - apply Q. apply apduError_shrinks.
Qed.
Lemma check_apdu_eats : forall bs d1, check_apdu (newDecoder bs) = (None, d1) -> drained d1 /\ (length (dbuf d1) < length bs)%nat.
Proof.
  intros bs d1 H. destruct bs as [|b r]; [vm_compute in H; discriminate|].
  unfold check_apdu in H. destruct (APDU_shrinks (newDecoder (b :: r))) as [[S1 S2] S3].
  destruct (dec_APDU (newDecoder (b :: r))) as [[a e] d2]. cbn [snd] in *. destruct e; [discriminate|].
  destruct (_ || _); [discriminate|]. injection H as <-. split; [apply S1; left; reflexivity|]. apply S3; [reflexivity|discriminate].
Qed.
Lemma rpm_hangs_or_ends : forall bs d1, check_apdu (newDecoder bs) = (None, d1) ->
  (forall fuel, dec_ReadMultiplePropertyAck fuel d1 = Fuel)
  \/ exists r, r <> Fuel /\ forall fuel, (length bs <= fuel)%nat -> dec_ReadMultiplePropertyAck fuel d1 = r.
Proof.
  intros bs d1 H. destruct (check_apdu_eats bs d1 H) as [HD HL].
  destruct (rpm_decided (length bs) d1 HD HL) as [Q|(r & Q1 & _ & Q2)]; [left; exact Q|right; exists r; auto].
Qed.
