(** Proofs about texts of IP addresses: C134-C138. *)
From Coq Require Import Lia ZifyBool ZifyNat.
From Verif Require Import ModelNet SpecWire SpecNet SpecRun SpecIpText ProofsWire ProofsBits ProofsTypes.
Import ListNotations.
Open Scope list_scope.
Open Scope Z_scope.

(** * Decimal fields *)
Lemma number_ge : forall s v, forallb is_digit s = true -> 0 <= v ->
  v * 10 ^ zlen s <= fold_left (fun v x => v * 10 + (x - 48)) s v.
Proof.
  induction s as [|x s IH]; intros v H Hv; [cbn; lia|]. cbn [forallb] in H. apply andb_prop in H. destruct H as [Hx H]. unfold is_digit in Hx.
  cbn [fold_left]. specialize (IH (v * 10 + (x - 48)) H ltac:(lia)). eapply Z.le_trans; [|exact IH].
  replace (zlen (x :: s)) with (zlen s + 1) by (unfold zlen; cbn [length]; lia). rewrite Z.pow_add_r by (unfold zlen; lia). change (10 ^ 1) with 10.
  assert (0 < 10 ^ zlen s) by (apply Z.pow_pos_nonneg; unfold zlen; lia). nia.
Qed.
Lemma field_exact : forall s n, ip_field s = Some n -> is_byte n /\ s = dec_octet n.
Proof.
  intros s n H. destruct s as [|x r]; [discriminate|]. cbn [ip_field] in H.
  destruct (forallb is_digit (x :: r) && (number (x :: r) <=? 255) && (negb (x =? 48) || (zlen r =? 0))) eqn:E; [|discriminate]. injection H as <-.
  apply andb_prop in E. destruct E as [E E3]. apply andb_prop in E. destruct E as [E1 E2].
  assert (L : zlen r <= 2).
  { destruct (Z_le_gt_dec (zlen r) 2); [assumption|]. exfalso. assert (x <> 48) by lia.
    cbn [forallb] in E1. apply andb_prop in E1. destruct E1 as [Hx E1]. unfold is_digit in Hx.
    pose proof (number_ge r (x - 48) E1 ltac:(lia)) as G. unfold number in E2. cbn [fold_left] in E2.
    replace (0 * 10 + (x - 48)) with (x - 48) in E2 by lia.
    pose proof (Z.pow_le_mono_r 10 3 (zlen r) ltac:(lia) ltac:(lia)) as PW. change (10 ^ 3) with 1000 in PW. nia. }
  assert (D : forall y, In y (x :: r) -> 48 <= y <= 57).
  { intros y Hy. rewrite forallb_forall in E1. specialize (E1 y Hy). unfold is_digit in E1. lia. }
  unfold number in *. destruct r as [|y [|z [|w r]]]; [| | |unfold zlen in L; cbn in L; lia]; cbn [fold_left] in *.
  - pose proof (D x ltac:(left; reflexivity)). unfold is_byte, dec_octet. split; [lia|]. replace (0 * 10 + (x - 48) <? 10) with true by lia. f_equal. lia.
  - pose proof (D x ltac:(left; reflexivity)). pose proof (D y ltac:(right; left; reflexivity)). cbn [zlen length] in E3. assert (x <> 48) by (unfold zlen in E3; cbn in E3; lia).
    unfold is_byte, dec_octet. split; [lia|]. set (n := (0 * 10 + (x - 48)) * 10 + (y - 48)). replace (n <? 10) with false by lia. replace (n <? 100) with true by lia. repeat f_equal; lia.
  - pose proof (D x ltac:(left; reflexivity)). pose proof (D y ltac:(right; left; reflexivity)). pose proof (D z ltac:(right; right; left; reflexivity)).
    assert (x <> 48) by (unfold zlen in E3; cbn in E3; lia).
    unfold is_byte, dec_octet. split; [lia|]. set (n := ((0 * 10 + (x - 48)) * 10 + (y - 48)) * 10 + (z - 48)) in *. replace (n <? 10) with false by lia. replace (n <? 100) with false by lia.
    repeat f_equal; lia.
Qed.
Fixpoint join_with (c : Z) (l : list text) : text :=
  match l with [] => [] | [a] => a | a :: r => a ++ c :: join_with c r end.
Lemma split_join : forall c s, s = join_with c (split c s).
Proof.
  intros c s. induction s as [|x s IH]; [reflexivity|]. cbn [split]. destruct (Z.eqb_spec x c) as [->|].
  - destruct (split c s) as [|f r] eqn:E; [destruct s; cbn in E; [discriminate|destruct (z =? c); [discriminate|destruct (split c s); discriminate]]|].
    cbn [join_with app]. f_equal. exact IH.
  - destruct (split c s) as [|f r] eqn:E; [cbn; f_equal; exact IH|]. cbn [join_with] in *. destruct r; cbn [app]; f_equal; exact IH.
Qed.
(** the IPv4 texts are the dotted ones *)
Lemma parse4_exact : forall s ip, parseIPv4 s = Some ip <-> ip4_text s ip.
Proof.
  intros s ip. split.
  - intro H. unfold parseIPv4 in H. pose proof (split_join 46 s) as J. destruct (split 46 s) as [|a [|b [|c [|d [|]]]]]; try discriminate H.
    destruct (ip_field a) as [a'|] eqn:Ea; [|discriminate]. destruct (ip_field b) as [b'|] eqn:Eb; [|discriminate].
    destruct (ip_field c) as [c'|] eqn:Ec; [|discriminate]. destruct (ip_field d) as [d'|] eqn:Ed; [|discriminate]. injection H as <-.
    apply field_exact in Ea, Eb, Ec, Ed. destruct Ea as [? ->], Eb as [? ->], Ec as [? ->], Ed as [? ->].
    split; [split; [repeat (apply Forall_cons; [assumption|]); apply Forall_nil|reflexivity]|exact J].
  - intros [H ->]. apply parse4_dotted. exact H.
Qed.

(** * Groups *)
Lemma hex_digit_some : forall x d, hex_digit x = Some d -> hex_char x /\ d = hex_val x.
Proof.
  intros x d H. unfold hex_digit, is_digit in H. unfold hex_char, hex_val.
  destruct ((48 <=? x) && (x <=? 57)) eqn:E1; [injection H as <-; replace (x <=? 57) with true by lia; lia|].
  destruct ((97 <=? x) && (x <=? 102)) eqn:E2; [injection H as <-; replace (x <=? 57) with false by lia; replace (x <=? 70) with false by lia; lia|].
  destruct ((65 <=? x) && (x <=? 70)) eqn:E3; [injection H as <-; replace (x <=? 57) with false by lia; replace (x <=? 70) with true by lia; lia|discriminate].
Qed.
Lemma hex_digit_char : forall x, hex_char x -> hex_digit x = Some (hex_val x).
Proof.
  intros x H. destruct (hex_digit x) eqn:E; [apply hex_digit_some in E; destruct E as [_ ->]; reflexivity|].
  exfalso. unfold hex_digit, is_digit in E. unfold hex_char in H.
  destruct ((48 <=? x) && (x <=? 57)) eqn:E1; [discriminate|]. destruct ((97 <=? x) && (x <=? 102)) eqn:E2; [discriminate|].
  destruct ((65 <=? x) && (x <=? 70)) eqn:E3; [discriminate|]. lia.
Qed.
Definition no_hex (r : text) : Prop := match r with [] => True | x :: _ => hex_digit x = None end.
Lemma hex_run_app : forall g r, Forall hex_char g -> no_hex r -> hex_run (g ++ r) = (map hex_val g, r).
Proof.
  induction g as [|x g IH]; intros r H Hr.
  - destruct r as [|y r]; [reflexivity|]. cbn [no_hex] in Hr. cbn [app hex_run map]. rewrite Hr. reflexivity.
  - inversion_clear H. cbn [app hex_run map]. rewrite hex_digit_char by assumption. rewrite IH by assumption. reflexivity.
Qed.
Lemma hex_run_inv : forall s ds r, hex_run s = (ds, r) -> exists g, s = g ++ r /\ Forall hex_char g /\ ds = map hex_val g /\ no_hex r.
Proof.
  induction s as [|x s IH]; intros ds r H; cbn [hex_run] in H.
  - injection H as <- <-. exists []. repeat split. constructor.
  - destruct (hex_digit x) as [d|] eqn:E.
    + destruct (hex_run s) as [ds' r']. injection H as <- <-. destruct (IH _ _ eq_refl) as (g & -> & Hg & -> & Hr).
      apply hex_digit_some in E. destruct E as [Hx ->]. exists (x :: g). repeat split; [constructor; assumption|exact Hr].
    + injection H as <- <-. exists []. repeat split; [constructor|exact E].
Qed.
Lemma hex_number_group : forall g, hex_number (map hex_val g) = group_num g.
Proof.
  intro g. unfold hex_number, group_num. generalize 0. induction g as [|x g IH]; intro v; [reflexivity|]. cbn [map fold_left].
  replace (v * 16 + hex_val x) with (16 * v + hex_val x) by lia. apply IH.
Qed.
Lemma group_num_nonneg : forall g, Forall hex_char g -> 0 <= group_num g.
Proof.
  intros g. unfold group_num. assert (X : forall v, 0 <= v -> Forall hex_char g -> 0 <= fold_left (fun v x => 16 * v + hex_val x) g v).
  { induction g as [|x g IH]; intros v Hv H; [exact Hv|]. inversion_clear H. cbn [fold_left]. apply IH; [|assumption].
    unfold hex_char, hex_val in *. destruct (x <=? 57) eqn:E1; [lia|]. destruct (x <=? 70) eqn:E2; lia. }
  intro H. apply X; [lia|exact H].
Qed.
Lemma group_octets : forall g, is_group g -> octets 2 (group_num g) = [group_num g / 256; group_num g mod 256].
Proof.
  intros g (_ & H & L). pose proof (group_num_nonneg g H). rewrite <- be16_octets. unfold be16. f_equal. lia.
Qed.

(** * The loop *)
Lemma colons_cons : forall a l, l <> [] -> colons (a :: l) = a ++ 58 :: colons l.
Proof. intros a [|b l] H; [contradiction H; reflexivity|reflexivity]. Qed.
Lemma meant_cons : forall g gs t, is_group g -> meant (g :: gs) t = [group_num g / 256; group_num g mod 256] ++ meant gs t.
Proof. intros g gs t H. unfold meant. cbn [flat_map]. rewrite group_octets by exact H. rewrite <- app_assoc. reflexivity. Qed.
Lemma meant_length : forall gs t, tail_ok t -> length (meant gs t) = (2 * length gs + match t with Some _ => 4 | None => 0 end)%nat.
Proof.
  intros gs t Ht. unfold meant. rewrite app_length. f_equal; [|destruct t as [ip|]; [exact (proj2 Ht)|reflexivity]].
  induction gs as [|g gs IH]; [reflexivity|]. cbn [flat_map]. rewrite app_length, IH. change (length (octets 2 (group_num g))) with 2%nat. cbn [length]. lia.
Qed.
Lemma group_check : forall g, is_group g -> (zlen (map hex_val g) =? 0) || (65535 <? hex_number (map hex_val g)) = false.
Proof.
  intros g (N & H & L). rewrite hex_number_group. unfold zlen. rewrite map_length. destruct g; [contradiction N; reflexivity|]. cbn [length]. lia.
Qed.
Lemma checked_group : forall g, Forall hex_char g -> (zlen (map hex_val g) =? 0) || (65535 <? hex_number (map hex_val g)) = false -> is_group g.
Proof.
  intros g H E. rewrite hex_number_group in E. unfold zlen in E. rewrite map_length in E. split; [|split; [exact H|lia]].
  intros ->. cbn in E. discriminate.
Qed.
Lemma groups6_sound : forall k acc ell s acc' ell', groups6 k acc ell s = Some (acc', ell', []) -> s <> [] -> (length acc + 2 * k <= 16)%nat ->
  (length acc' <= 16)%nat
  /\ ((ell' = ell /\ exists gs t, Forall is_group gs /\ tail_ok t /\ written gs t <> [] /\ s = colons (written gs t) /\ acc' = acc ++ meant gs t)
   \/ (ell = None /\ exists gs hs t, gs <> [] /\ Forall is_group gs /\ Forall is_group hs /\ tail_ok t
       /\ s = colons gs ++ 58 :: 58 :: colons (written hs t)
       /\ ell' = Some (length acc + length (meant gs None))%nat /\ acc' = acc ++ meant gs None ++ meant hs t)).
Proof.
  induction k as [|k IH]; intros acc ell s acc' ell' H Hs Hk; cbn [groups6] in H; [injection H as _ _ ->; contradiction Hs; reflexivity|].
  destruct (hex_run s) as [ds r] eqn:E. apply hex_run_inv in E. destruct E as (g & -> & Hg & -> & Hr).
  destruct ((zlen (map hex_val g) =? 0) || (65535 <? hex_number (map hex_val g))) eqn:C; [discriminate|]. apply checked_group in C; [|exact Hg].
  rewrite hex_number_group in H. destruct r as [|c r].
  - injection H as <- <-. split; [rewrite app_length; cbn [length]; lia|]. left. split; [reflexivity|]. exists [g], None.
    split; [constructor; [exact C|constructor]|]. split; [exact I|]. split; [discriminate|]. split; [rewrite app_nil_r; reflexivity|]. rewrite meant_cons by exact C. reflexivity.
  - destruct (c =? 46) eqn:E46.
    + destruct (match ell with None => negb (zlen acc =? 12) | Some _ => 12 <? zlen acc end) eqn:R; [discriminate|].
      destruct (parseIPv4 (g ++ c :: r)) as [v4|] eqn:P; [|discriminate]. injection H as <- <-. apply parse4_exact in P. destruct P as [P1 P2].
      split; [rewrite app_length, (proj2 P1); unfold zlen in R; destruct ell; lia|].
      left. split; [reflexivity|]. exists [], (Some v4). split; [constructor|]. split; [exact P1|]. split; [discriminate|]. split; [exact P2|reflexivity].
    + destruct (negb (c =? 58)) eqn:E58; [discriminate|]. assert (c = 58) by lia. subst c. destruct r as [|c r]; [discriminate|].
      destruct (c =? 58) eqn:E2.
      * assert (c = 58) by lia. subst c. destruct ell as [e|]; [discriminate|]. destruct r as [|c r].
        -- injection H as <- <-. split; [rewrite app_length; cbn [length]; lia|]. right. split; [reflexivity|]. exists [g], [], None.
           split; [discriminate|]. split; [constructor; [exact C|constructor]|]. split; [constructor|]. split; [exact I|]. split; [reflexivity|].
           rewrite meant_cons by exact C. split; [rewrite !app_length; reflexivity|reflexivity].
        -- apply IH in H; [|discriminate|rewrite app_length; cbn [length]; lia]. destruct H as [L [(EL & gs & t & Hgs & Ht & Hw & Es & Ea)|(EL & _)]]; [|discriminate].
           split; [exact L|]. right. split; [reflexivity|]. exists [g], gs, t.
           split; [discriminate|]. split; [constructor; [exact C|constructor]|]. split; [exact Hgs|]. split; [exact Ht|]. split; [rewrite Es; reflexivity|].
           rewrite meant_cons by exact C. split; [rewrite EL, !app_length; reflexivity|]. rewrite Ea, <- app_assoc. reflexivity.
      * apply IH in H; [|discriminate|rewrite app_length; cbn [length]; lia]. destruct H as [L [(EL & gs & t & Hgs & Ht & Hw & Es & Ea)|(EL & gs & hs & t & Hne & Hgs & Hhs & Ht & Es & Ee & Ea)]].
        -- split; [exact L|]. left. split; [exact EL|]. exists (g :: gs), t. split; [constructor; assumption|]. split; [exact Ht|]. split; [discriminate|].
           split; [change (written (g :: gs) t) with (g :: written gs t); rewrite colons_cons by exact Hw; rewrite Es; reflexivity|].
           rewrite meant_cons by exact C. rewrite Ea, <- app_assoc. reflexivity.
        -- split; [exact L|]. right. split; [exact EL|]. exists (g :: gs), hs, t. split; [discriminate|]. split; [constructor; assumption|]. split; [exact Hhs|]. split; [exact Ht|].
           split; [rewrite colons_cons by exact Hne; rewrite Es, <- app_assoc; reflexivity|].
           rewrite meant_cons by exact C. split; [rewrite Ee, !app_length; f_equal; cbn [length]; lia|]. rewrite Ea, <- !app_assoc. reflexivity.
Qed.
Lemma dotted_start : forall ip, is_ip ip -> exists g r, spec_dotted ip = g ++ 46 :: r /\ is_group g.
Proof.
  intros ip H. destruct (ip_cases ip H) as (a & b & c & d & -> & Ha & Hb & Hc & Hd). unfold spec_dotted. eexists (dec_octet a), _. split; [reflexivity|].
  assert (X : (match dec_octet a with [] => false | _ => forallb is_digit (dec_octet a) && (group_num (dec_octet a) <? 65536) end) = true).
  { apply (sweep1 256 (fun n => match dec_octet n with [] => false | _ => forallb is_digit (dec_octet n) && (group_num (dec_octet n) <? 65536) end)); [vm_compute; reflexivity|unfold is_byte in Ha; lia]. }
  destruct (dec_octet a) as [|x l] eqn:E; [discriminate|]. rewrite <- E in *. apply andb_prop in X. destruct X as [X1 X2].
  split; [rewrite E; discriminate|]. split; [|lia]. apply Forall_forall. intros y Hy. rewrite forallb_forall in X1. specialize (X1 y Hy). unfold is_digit in X1. unfold hex_char. lia.
Qed.
Lemma group_start : forall g, is_group g -> exists x r, g = x :: r /\ x <> 58 /\ x <> 46 /\ x <> 47.
Proof.
  intros [|x g] (N & H & _); [contradiction N; reflexivity|]. inversion_clear H as [|? ? Hx _]. exists x, g. unfold hex_char in Hx. repeat split; lia.
Qed.
Lemma colons_start : forall gs t, Forall is_group gs -> tail_ok t -> written gs t <> [] ->
  exists x r, colons (written gs t) = x :: r /\ x <> 58.
Proof.
  intros gs t Hg Ht Hw.
  assert (X : exists g r, colons (written gs t) = g ++ r /\ is_group g).
  { destruct gs as [|g gs].
    - destruct t as [ip|]; [|contradiction Hw; reflexivity]. destruct (dotted_start ip Ht) as (g & r & E & G). exists g, (46 :: r). split; [exact E|exact G].
    - inversion_clear Hg. change (written (g :: gs) t) with (g :: written gs t). destruct (written gs t) as [|a l]; [exists g, []; split; [rewrite app_nil_r; reflexivity|assumption]|].
      rewrite colons_cons by discriminate. eexists g, _. split; [reflexivity|assumption]. }
  destruct X as (g & r & -> & G). destruct (group_start g G) as (x & l & -> & N & _). exists x, (l ++ r). split; [reflexivity|exact N].
Qed.
Lemma groups6_list : forall gs t k acc ell, Forall is_group gs -> tail_ok t -> written gs t <> [] -> (length (written gs t) <= k)%nat ->
  (match t, ell with Some _, None => zlen acc + 2 * zlen gs = 12 | Some _, Some _ => zlen acc + 2 * zlen gs <= 12 | None, _ => True end) ->
  groups6 k acc ell (colons (written gs t)) = Some (acc ++ meant gs t, ell, []).
Proof.
  induction gs as [|g gs IH]; intros t k acc ell Hg Ht Hw Hk Hc.
  - destruct t as [ip|]; [|contradiction Hw; reflexivity]. destruct k as [|k]; [cbn in Hk; lia|]. change (colons (written [] (Some ip))) with (spec_dotted ip).
    cbn [groups6]. destruct (dotted_start ip Ht) as (g & r & E & G). rewrite E. rewrite hex_run_app by (try exact (proj1 (proj2 G)); reflexivity).
    rewrite group_check by exact G. rewrite Z.eqb_refl. rewrite <- E, parse4_dotted by exact Ht. unfold zlen in Hc. cbn [length] in Hc.
    replace (match ell with Some _ => 12 <? zlen acc | None => negb (zlen acc =? 12) end) with false by (unfold zlen; destruct ell; lia). reflexivity.
  - inversion_clear Hg. destruct k as [|k]; [cbn in Hk; lia|]. change (written (g :: gs) t) with (g :: written gs t) in *. rewrite meant_cons by assumption.
    destruct (written gs t) as [|a l] eqn:W.
    + cbn [colons groups6]. assert (gs = [] /\ t = None) as [-> ->] by (unfold written in W; apply app_eq_nil in W; destruct W as [-> W]; destruct t; [discriminate|auto]).
      rewrite <- (app_nil_r g) at 1. rewrite hex_run_app by (try (destruct H as (_ & ? & _); assumption); reflexivity). rewrite group_check by assumption. rewrite hex_number_group. reflexivity.
    + rewrite colons_cons by discriminate. rewrite <- W in *. destruct (colons_start gs t ltac:(assumption) Ht ltac:(rewrite W; discriminate)) as (x & r & E & N).
      cbn [groups6]. rewrite hex_run_app by (try (destruct H as (_ & ? & _); assumption); reflexivity). rewrite group_check by assumption. rewrite hex_number_group.
      change (58 =? 46) with false. change (58 =? 58) with true. cbn [negb]. rewrite E. replace (x =? 58) with false by lia. rewrite <- E.
      rewrite IH; [rewrite <- app_assoc; reflexivity|assumption|exact Ht|rewrite W; discriminate|cbn [length] in Hk; lia|].
      unfold zlen in *. rewrite app_length. cbn [length] in *. destruct t, ell; lia.
Qed.
Lemma groups6_gap : forall gs hs t k acc, gs <> [] -> Forall is_group gs -> Forall is_group hs -> tail_ok t ->
  (length gs + length (written hs t) <= k)%nat ->
  (match t with Some _ => zlen acc + 2 * zlen gs + 2 * zlen hs <= 12 | None => True end) ->
  groups6 k acc None (colons gs ++ 58 :: 58 :: colons (written hs t))
  = Some (acc ++ meant gs None ++ meant hs t, Some (length acc + length (meant gs None))%nat, []).
Proof.
  induction gs as [|g gs IH]; intros hs t k acc Hn Hg Hh Ht Hk Hc; [contradiction Hn; reflexivity|]. inversion_clear Hg. destruct k as [|k]; [cbn in Hk; lia|].
  rewrite meant_cons by assumption. destruct gs as [|g' gs].
  - cbn [colons groups6]. rewrite hex_run_app by (try (destruct H as (_ & ? & _); assumption); reflexivity). rewrite group_check by assumption. rewrite hex_number_group.
    change (58 =? 46) with false. change (58 =? 58) with true. cbn [negb]. destruct (written hs t) as [|a l] eqn:W.
    + assert (hs = [] /\ t = None) as [-> ->] by (unfold written in W; apply app_eq_nil in W; destruct W as [-> W]; destruct t; [discriminate|auto]).
      cbn [colons]. rewrite !app_length. reflexivity.
    + rewrite <- W in *. destruct (colons_start hs t Hh Ht ltac:(rewrite W; discriminate)) as (x & r & E & N). rewrite E. rewrite <- E.
      rewrite groups6_list; [rewrite !app_length, <- app_assoc; reflexivity|exact Hh|exact Ht|rewrite W; discriminate|cbn [length] in Hk; lia|].
      unfold zlen in *. rewrite app_length. cbn [length] in *. destruct t; [lia|exact I].
  - rewrite colons_cons by discriminate. rewrite <- app_assoc. cbn [app].
    destruct (colons_start (g' :: gs) None ltac:(assumption) I ltac:(discriminate)) as (x & r & E & N). unfold written in E. rewrite app_nil_r in E.
    cbn [groups6]. rewrite hex_run_app by (try (destruct H as (_ & ? & _); assumption); reflexivity). rewrite group_check by assumption. rewrite hex_number_group.
    change (58 =? 46) with false. change (58 =? 58) with true. cbn [negb]. rewrite E. cbn [app]. replace (x =? 58) with false by lia.
    change (x :: r ++ 58 :: 58 :: colons (written hs t)) with ((x :: r) ++ 58 :: 58 :: colons (written hs t)). rewrite <- E.
    rewrite IH; [rewrite !app_length, <- !app_assoc; cbn [length]; do 2 f_equal; f_equal; f_equal; lia|discriminate|assumption|assumption|exact Ht|cbn [length] in *; lia|].
    unfold zlen in *. rewrite app_length. cbn [length] in *. destruct t; [lia|exact I].
Qed.

(** * IPv6 texts *)
Lemma written_length : forall gs t, length (written gs t) = (length gs + match t with Some _ => 1 | None => 0 end)%nat.
Proof. intros gs t. unfold written. rewrite app_length. destruct t; reflexivity. Qed.
Lemma colons_groups : forall gs, gs <> [] -> Forall is_group gs -> exists x r, colons gs = x :: r /\ x <> 58.
Proof.
  intros gs N H. destruct (colons_start gs None H I) as (x & r & E & Hx); [unfold written; rewrite app_nil_r; exact N|].
  unfold written in E. rewrite app_nil_r in E. exists x, r. auto.
Qed.
Lemma parse6_plain : forall x s, x <> 58 -> parseIPv6 (x :: s) = match groups6 8 [] None (x :: s) with
    | Some (acc, ell, []) => match ell with
      | Some e => if (length acc <? 16)%nat then Some (firstn e acc ++ repeat 0 (16 - length acc) ++ skipn e acc) else None
      | None => if (length acc <? 16)%nat then None else Some acc end
    | _ => None end.
Proof.
  intros x s N. unfold parseIPv6. destruct s as [|y s]; [reflexivity|]. replace (x =? 58) with false by lia. reflexivity.
Qed.
Lemma parse6_complete : forall s ip, ip6_text s ip -> parseIPv6 s = Some ip.
Proof.
  intros s ip H. destruct H as [gs t Hg Ht HL|gs hs t Hg Hh Ht HL].
  - pose proof (meant_length gs t Ht) as ML. rewrite HL in ML.
    assert (Hw : written gs t <> []) by (intro W; apply (f_equal (@length text)) in W; rewrite written_length in W; cbn [length] in W; destruct t; lia).
    destruct (colons_start gs t Hg Ht Hw) as (x & r & E & N). rewrite E, parse6_plain by exact N. rewrite <- E.
    rewrite groups6_list; [|assumption|assumption|assumption|rewrite written_length; destruct t; lia|unfold zlen; cbn [length]; destruct t; [lia|exact I]].
    cbn [app]. rewrite HL. reflexivity.
  - rewrite (meant_length gs None I), (meant_length hs t Ht) in HL. destruct gs as [|g gs].
    + cbn [colons app]. unfold parseIPv6. change (58 =? 58) with true. cbn [andb]. destruct (written hs t) as [|a l] eqn:W.
      * assert (hs = [] /\ t = None) as [-> ->] by (unfold written in W; apply app_eq_nil in W; destruct W as [-> W]; destruct t; [discriminate|auto]). reflexivity.
      * rewrite <- W. destruct (colons_start hs t Hh Ht ltac:(rewrite W; discriminate)) as (x & r & E & N). rewrite E. rewrite <- E.
        rewrite groups6_list; [|assumption|assumption|rewrite W; discriminate|rewrite written_length; destruct t; lia|unfold zlen; cbn [length]; destruct t; [lia|exact I]].
        cbn [app meant flat_map length Nat.add firstn skipn]. pose proof (meant_length hs t Ht) as ML.
        replace (length (meant hs t) <? 16)%nat with true by (symmetry; apply Nat.ltb_lt; destruct t; cbn [length] in *; lia). reflexivity.
    + destruct (colons_groups (g :: gs) ltac:(discriminate) Hg) as (x & r & E & N). rewrite E. cbn [app]. rewrite parse6_plain by exact N.
      change (x :: r ++ 58 :: 58 :: colons (written hs t)) with ((x :: r) ++ 58 :: 58 :: colons (written hs t)). rewrite <- E.
      rewrite groups6_gap; [|discriminate|assumption|assumption|assumption|rewrite written_length; destruct t; lia|unfold zlen; cbn [length] in *; destruct t; [lia|exact I]].
      cbn [app]. rewrite app_length. pose proof (meant_length hs t Ht) as ML. pose proof (meant_length (g :: gs) None I) as MG.
      assert (L16 : (length (meant (g :: gs) None) + length (meant hs t) < 16)%nat) by (rewrite ML, MG; destruct t; lia).
      apply Nat.ltb_lt in L16. rewrite L16. cbn [length Nat.add]. rewrite firstn_app, skipn_app, Nat.sub_diag, firstn_all, skipn_all, firstn_O, app_nil_r. reflexivity.
Qed.
Lemma parse6_sound : forall s ip, parseIPv6 s = Some ip -> ip6_text s ip.
Proof.
  intros s ip H.
  assert (D : (exists r, s = 58 :: 58 :: r) \/ ((forall r, s <> 58 :: 58 :: r) /\ match s with x :: y :: r => if (x =? 58) && (y =? 58) then (Some O, r) else (None, s) | _ => (@None nat, s) end = (None, s))).
  { destruct s as [|x [|y r]]; [right; split; [discriminate|reflexivity]|right; split; [discriminate|reflexivity]|].
    destruct (Z.eqb_spec x 58) as [->|]; [|right; split; [congruence|reflexivity]]. destruct (Z.eqb_spec y 58) as [->|]; [left; eauto|right; split; [congruence|reflexivity]]. }
  unfold parseIPv6 in H. destruct D as [(r & ->)|[D E]].
  - change (58 =? 58) with true in H. cbn [andb] in H. destruct r as [|x r].
    + injection H as <-. exact (ip6_short [] [] None (Forall_nil _) (Forall_nil _) I ltac:(cbn; lia)).
    + destruct (groups6 8 [] (Some O) (x :: r)) as [[[acc ell] [|]]|] eqn:G; try discriminate H.
      apply groups6_sound in G; [|discriminate|cbn; lia]. destruct G as [L [(-> & gs & t & Hg & Ht & Hw & Es & Ea)|(X & _)]]; [|discriminate].
      destruct (length acc <? 16)%nat eqn:L16; [|discriminate]. injection H as <-. rewrite Es. cbn [app] in Ea. subst acc.
      pose proof (meant_length gs t Ht) as ML. apply Nat.ltb_lt in L16.
      exact (ip6_short [] gs t (Forall_nil _) Hg Ht ltac:(cbn [meant flat_map app length Nat.add]; destruct t; lia)).
  - rewrite E in H. destruct (groups6 8 [] None s) as [[[acc ell] [|]]|] eqn:G; try discriminate H.
    assert (Hs : s <> []) by (intros ->; discriminate G). apply groups6_sound in G; [|exact Hs|cbn; lia].
    destruct G as [L [(-> & gs & t & Hg & Ht & Hw & Es & Ea)|(_ & gs & hs & t & Hn & Hg & Hh & Ht & Es & Ee & Ea)]]; cbn [app] in Ea; subst acc.
    + destruct (length (meant gs t) <? 16)%nat eqn:L16; [discriminate|]. injection H as <-. apply Nat.ltb_ge in L16. rewrite Es. apply ip6_full; try assumption. lia.
    + subst ell. destruct (length (meant gs None ++ meant hs t) <? 16)%nat eqn:L16; [|discriminate]. injection H as <-. apply Nat.ltb_lt in L16. rewrite Es.
      cbn [length Nat.add]. rewrite app_length in *. rewrite firstn_app, skipn_app, Nat.sub_diag, firstn_all, skipn_all, firstn_O, app_nil_r. cbn [app skipn].
      pose proof (meant_length hs t Ht) as ML. pose proof (meant_length gs None I) as MG. apply ip6_short; try assumption. rewrite ML, MG in *. destruct t; lia.
Qed.
Lemma parse6_exact : forall s ip, parseIPv6 s = Some ip <-> ip6_text s ip.
Proof. intros s ip. split; [apply parse6_sound|apply parse6_complete]. Qed.

(** * Addresses *)
Lemma group_free : forall g c, is_group g -> ~ hex_char c -> ~ In c g.
Proof. intros g c (_ & H & _) N Hi. rewrite Forall_forall in H. exact (N (H c Hi)). Qed.
Lemma not_hex : forall c, 46 <= c <= 47 \/ c = 58 -> ~ hex_char c.
Proof. intros c H. unfold hex_char. lia. Qed.
Lemma ip6_kind : forall s ip, ip6_text s ip -> ip_kind s = Some true.
Proof.
  intros s ip H. assert (X : (exists r, s = 58 :: r) \/ exists g r, is_group g /\ s = g ++ 58 :: r).
  { destruct H as [gs t Hg Ht HL|gs hs t Hg Hh Ht HL].
    - right. rewrite meant_length in HL by exact Ht. destruct gs as [|g gs]; [cbn [length] in HL; destruct t; lia|]. inversion_clear Hg.
      change (written (g :: gs) t) with (g :: written gs t).
      assert (written gs t <> []) by (intro W; apply (f_equal (@length text)) in W; rewrite written_length in W; cbn [length] in *; destruct t; lia).
      rewrite colons_cons by assumption. eexists g, _. split; [assumption|reflexivity].
    - destruct gs as [|g [|g' gs]]; [left; eexists; reflexivity|right|right]; inversion_clear Hg.
      + eexists g, _. split; [assumption|reflexivity].
      + rewrite colons_cons by discriminate. rewrite <- app_assoc. eexists g, _. split; [assumption|reflexivity]. }
  destruct X as [(r & ->)|(g & r & G & ->)]; [reflexivity|]. rewrite kind_skip by (apply group_free; [exact G|apply not_hex; lia]). reflexivity.
Qed.
Lemma ip6_length : forall s ip, ip6_text s ip -> length ip = 16%nat.
Proof.
  intros s ip H. destruct H as [gs t Hg Ht HL|gs hs t Hg Hh Ht HL]; [exact HL|]. rewrite !app_length, repeat_length. lia.
Qed.
Lemma colons_free : forall l c, (forall a, In a l -> ~ In c a) -> c <> 58 -> ~ In c (colons l).
Proof.
  induction l as [|a l IH]; intros c H N Hi; [exact Hi|]. destruct l as [|b l]; [exact (H a (or_introl eq_refl) Hi)|].
  rewrite colons_cons in Hi by discriminate. apply in_app_or in Hi. destruct Hi as [Hi|[Hi|Hi]]; [exact (H a (or_introl eq_refl) Hi)|lia|].
  revert Hi. apply IH; [|exact N]. intros x Hx. apply H. right. exact Hx.
Qed.
Lemma written_free : forall gs t, Forall is_group gs -> tail_ok t -> forall a, In a (written gs t) -> ~ In 47 a.
Proof.
  intros gs t Hg Ht a Ha. unfold written in Ha. apply in_app_or in Ha. destruct Ha as [Ha|Ha].
  - rewrite Forall_forall in Hg. apply group_free; [exact (Hg a Ha)|apply not_hex; lia].
  - destruct t as [ip|]; [|contradiction]. destruct Ha as [<-|[]]. apply dotted_chars; [exact Ht|lia|lia].
Qed.
Lemma ip_text_free : forall s ip, ip_text s ip -> ~ In 47 s.
Proof.
  intros s ip [[H ->]|H]; [apply dotted_chars; [exact H|lia|lia]|]. destruct H as [gs t Hg Ht HL|gs hs t Hg Hh Ht HL].
  - apply colons_free; [apply written_free; assumption|lia].
  - intro Hi. apply in_app_or in Hi. destruct Hi as [Hi|[Hi|[Hi|Hi]]]; try lia.
    + revert Hi. apply colons_free; [|lia]. intros a Ha. apply (written_free gs None Hg I). unfold written. apply in_or_app. left. exact Ha.
    + revert Hi. apply colons_free; [apply written_free; assumption|lia].
Qed.
Lemma parse_exact : forall s ip, ParseIP s = Some ip <-> ip_text s ip.
Proof.
  intros s ip. unfold ParseIP. split.
  - intro H. destruct (ip_kind s) as [[|]|]; [right; apply parse6_exact; exact H|left; apply parse4_exact; exact H|discriminate].
  - intros [[H ->]|H]; [rewrite dotted_kind by exact H; apply parse4_dotted; exact H|]. rewrite (ip6_kind s ip H). apply parse6_exact. exact H.
Qed.
Lemma parse_either : forall s ip, match parseIPv4 s with Some ip => Some ip | None => parseIPv6 s end = Some ip <-> ip_text s ip.
Proof.
  intros s ip. split.
  - intro H. destruct (parseIPv4 s) as [v4|] eqn:E; [injection H as <-; left; apply parse4_exact; exact E|right; apply parse6_exact; exact H].
  - intros [H|H]; [apply parse4_exact in H; rewrite H; reflexivity|]. destruct (parseIPv4 s) as [v4|] eqn:E; [|apply parse6_exact; exact H].
    exfalso. apply parse4_exact in E. destruct E as [E ->]. pose proof (dotted_kind v4 E) as K. rewrite (ip6_kind _ _ H) in K. discriminate.
Qed.
Lemma text_length : forall s ip, ip_text s ip -> length ip = 4%nat \/ length ip = 16%nat.
Proof. intros s ip [[H _]|H]; [left; apply H|right; exact (ip6_length s ip H)]. Qed.

(** * Addresses with a mask *)
Lemma cut_inv : forall c s a b, cut c s = Some (a, b) -> s = a ++ c :: b /\ ~ In c a.
Proof.
  intros c s. induction s as [|x s IH]; intros a b H; cbn [cut] in H; [discriminate|]. destruct (Z.eqb_spec x c) as [->|].
  - injection H as <- <-. split; [reflexivity|intros []].
  - destruct (cut c s) as [[a' b']|]; [|discriminate]. injection H as <- <-. destruct (IH _ _ eq_refl) as [-> N]. split; [reflexivity|]. intros [X|X]; [congruence|exact (N X)].
Qed.
Lemma decimal_exact : forall m n, decimal m n <-> m <> [] /\ forallb is_digit m = true /\ number m = n.
Proof.
  intros m n. unfold decimal. assert (E : fold_left (fun v x => 10 * v + (x - 48)) m 0 = number m).
  { unfold number. generalize 0. induction m as [|x m IH]; intro v; [reflexivity|]. cbn [fold_left]. replace (10 * v + (x - 48)) with (v * 10 + (x - 48)) by lia. apply IH. }
  rewrite E. split; intros (N & D & ->); (split; [exact N|]; split; [|reflexivity]).
  - apply forallb_forall. rewrite Forall_forall in D. intros x Hx. specialize (D x Hx). unfold is_digit. lia.
  - apply Forall_forall. rewrite forallb_forall in D. intros x Hx. specialize (D x Hx). unfold is_digit in D. lia.
Qed.
Lemma cidr_exact : forall s ip n, ParseCIDR s = Some (ip, n) <-> cidr_text s ip n.
Proof.
  intros s ip n. unfold ParseCIDR, cidr_text. split.
  - destruct (cut 47 s) as [[a m]|] eqn:C; [|discriminate]. apply cut_inv in C. destruct C as [-> _].
    destruct (match parseIPv4 a with Some ip => Some ip | None => parseIPv6 a end) as [ip'|] eqn:P; [|discriminate]. apply parse_either in P.
    destruct m as [|x m]; [discriminate|]. destruct (forallb is_digit (x :: m)) eqn:D; [|discriminate]. destruct (number (x :: m) <=? 8 * zlen ip') eqn:L; [|discriminate].
    intro H. cbn [andb] in H. injection H as <- <-. exists a, (x :: m). split; [reflexivity|]. split; [exact P|]. split; [|lia]. apply decimal_exact. repeat split; [discriminate|exact D].
  - intros (a & m & -> & P & D & L). rewrite cut_app by exact (ip_text_free a ip P). apply parse_either in P. rewrite P. apply decimal_exact in D. destruct D as (N & D & <-).
    destruct m as [|x m]; [contradiction N; reflexivity|]. rewrite D. replace (number (x :: m) <=? 8 * zlen ip) with true by lia. reflexivity.
Qed.
Lemma cidr_none : forall s, (forall ip n, ~ cidr_text s ip n) -> ParseCIDR s = None.
Proof. intros s H. destruct (ParseCIDR s) as [[ip n]|] eqn:E; [|reflexivity]. apply cidr_exact in E. contradiction (H ip n E). Qed.
Lemma decimal_nonneg : forall m n, decimal m n -> 0 <= n.
Proof.
  intros m n (_ & D & ->). assert (X : forall v, 0 <= v -> 0 <= fold_left (fun v x => 10 * v + (x - 48)) m v); [|apply X; lia].
  induction m as [|x m IH]; intros v Hv; [exact Hv|]. inversion_clear D. cbn [fold_left]. apply IH; [assumption|lia].
Qed.
Lemma to4_none : forall ip, length ip = 4%nat \/ length ip = 16%nat -> (To4 ip = None <-> pure6 ip).
Proof.
  intros ip L. unfold To4, pure6, zlen. destruct L as [L|L]; rewrite L.
  - cbn. split; [discriminate|]. intros [X _]. discriminate X.
  - change (Z.of_nat 16 =? 4) with false. change (Z.of_nat 16 =? 16) with true. cbn [andb].
    do 16 (destruct ip as [|? ip]; [discriminate L|]). destruct ip; [|discriminate L]. cbn [firstn skipn forallb]. split.
    + intro H. split; [reflexivity|]. intros v4 E. unfold mapped in E. cbn [app] in E.
      injection E as -> -> -> -> -> -> -> -> -> -> -> -> E. cbn in H. discriminate.
    + intros [_ H]. match goal with |- (if ?b then _ else _) = None => destruct b eqn:E end; [|reflexivity]. exfalso. eapply H. unfold mapped. cbn [app].
      assert (z = 0 /\ z0 = 0 /\ z1 = 0 /\ z2 = 0 /\ z3 = 0 /\ z4 = 0 /\ z5 = 0 /\ z6 = 0 /\ z7 = 0 /\ z8 = 0 /\ z9 = 255 /\ z10 = 255) by lia.
      decompose [and] H0. subst. reflexivity.
Qed.
Lemma to4_mapped : forall v4, length v4 = 4%nat -> To4 (mapped v4) = Some v4.
Proof. intros v4 L. do 4 (destruct v4 as [|? v4]; [discriminate L|]). destruct v4; [reflexivity|discriminate L]. Qed.
Lemma to4_four : forall ip, length ip = 4%nat -> To4 ip = Some ip.
Proof. intros ip L. unfold To4, zlen. rewrite L. reflexivity. Qed.
Lemma to4_some : forall ip v4, length ip = 4%nat \/ length ip = 16%nat -> To4 ip = Some v4 -> length v4 = 4%nat /\ (ip = v4 \/ ip = mapped v4).
Proof.
  intros ip v4 L H. destruct L as [L|L]; [rewrite to4_four in H by exact L; injection H as <-; auto|].
  destruct (to4_none ip (or_intror L)) as [_ X]. unfold To4, zlen in H. rewrite L in H. change (Z.of_nat 16 =? 4) with false in H. change (Z.of_nat 16 =? 16) with true in H. cbn [andb] in H.
  do 16 (destruct ip as [|? ip]; [discriminate L|]). destruct ip; [|discriminate L]. cbn [firstn skipn forallb] in H.
  match type of H with (if ?b then _ else _) = _ => destruct b eqn:E end; [|discriminate]. injection H as <-. split; [reflexivity|]. right. unfold mapped. cbn [app].
  assert (z = 0 /\ z0 = 0 /\ z1 = 0 /\ z2 = 0 /\ z3 = 0 /\ z4 = 0 /\ z5 = 0 /\ z6 = 0 /\ z7 = 0 /\ z8 = 0 /\ z9 = 255 /\ z10 = 255) by lia.
  decompose [and] H. subst. reflexivity.
Qed.

(** * The data link *)
Definition made (port : Z) (ip : list Z) (n : Z) (v4 : list Z) : link :=
  mkLink (listened port) (UDPToAddress v4 (effective_port port))
    (UDPToAddress (zip_with (fun a m => Z.lor a (Z.lxor 255 m)) (firstn 4 (zip_with Z.land ip (mask (zlen ip) n))) (firstn 4 (mask (zlen ip) n))) 47808).
Lemma link_of : forall listen s ip n port, cidr_text s ip n ->
  dataLink listen s port = if listen (listened port) then match To4 ip with None => RPanic | Some v4 => ROk (Some (made port ip n v4)) end else ROk None.
Proof. intros listen s ip n port H. apply cidr_exact in H. unfold dataLink. rewrite H. reflexivity. Qed.
Lemma link_none : forall listen s port, (forall ip n, ~ cidr_text s ip n) -> dataLink listen s port = ROk None.
Proof. intros listen s port H. unfold dataLink. rewrite cidr_none by exact H. reflexivity. Qed.
Lemma cidr_length : forall s ip n, cidr_text s ip n -> length ip = 4%nat \/ length ip = 16%nat.
Proof. intros s ip n (a & m & _ & H & _). exact (text_length a ip H). Qed.
Lemma cidr_four : forall s ip n, cidr_text s ip n -> length ip = 4%nat -> is_ip ip /\ 0 <= n <= 32.
Proof.
  intros s ip n (a & m & _ & [[H _]|H] & D & L) E; [|apply ip6_length in H; congruence].
  split; [exact H|]. apply decimal_nonneg in D. unfold zlen in L. rewrite E in L. lia.
Qed.
Lemma link_panics : forall listen s port,
  dataLink listen s port = RPanic <-> listen (listened port) = true /\ exists ip n, cidr_text s ip n /\ pure6 ip.
Proof.
  intros listen s port. split.
  - intro H. unfold dataLink in H. destruct (ParseCIDR s) as [[ip n]|] eqn:P; [|discriminate]. apply cidr_exact in P.
    change (if (0 <=? effective_port port) && (effective_port port <=? 65535) then Some (effective_port port) else None) with (listened port) in H.
    change (if port =? 0 then DefaultPort else port) with (effective_port port) in H.
    change (if (0 <=? effective_port port) && (effective_port port <=? 65535) then Some (effective_port port) else None) with (listened port) in H.
    destruct (listen (listened port)); [|discriminate]. split; [reflexivity|]. exists ip, n. split; [exact P|].
    apply to4_none; [exact (cidr_length s ip n P)|]. destruct (To4 ip); [discriminate|reflexivity].
  - intros [HL (ip & n & P & H)]. rewrite (link_of listen s ip n port P), HL. apply to4_none in H; [|exact (cidr_length s ip n P)]. rewrite H. reflexivity.
Qed.
(** a link to an IPv4 address *)
Lemma link_four : forall listen s ip n port, cidr_text s ip n -> length ip = 4%nat -> is_port port -> listen (Some (effective_port port)) = true ->
  exists l bc, dataLink listen s port = ROk (Some l)
  /\ lk_port l = Some (effective_port port) /\ addr_UDPAddr (lk_my l) = Some (ip, effective_port port)
  /\ addr_UDPAddr (lk_bcast l) = Some (bc, 47808) /\ subnet_bcast ip n bc.
Proof.
  intros listen s ip n port H L Hp HL. destruct (cidr_four s ip n H L) as [Hi Hn].
  assert (HE : is_port (effective_port port)) by (unfold is_port, effective_port in *; destruct (port =? 0) eqn:E; lia).
  assert (EL : listened port = Some (effective_port port)) by (unfold listened; unfold is_port in HE; replace ((0 <=? effective_port port) && (effective_port port <=? 65535)) with true by lia; reflexivity).
  rewrite (link_of listen s ip n port H), EL, HL, to4_four by exact L. pose proof (link_bcast ip n Hi Hn) as B.
  exists (made port ip n ip), (zip_with (fun a m => Z.lor a (Z.lxor 255 m)) (zip_with Z.land ip (mask 4 n)) (mask 4 n)).
  split; [reflexivity|]. split; [exact EL|]. split; [apply udp_of_link; assumption|]. split; [|exact B].
  replace (lk_bcast (made port ip n ip)) with (UDPToAddress (zip_with (fun a m => Z.lor a (Z.lxor 255 m)) (zip_with Z.land ip (mask 4 n)) (mask 4 n)) 47808).
  - apply udp_of_link; [apply B|unfold is_port; lia].
  - destruct (ip_cases ip Hi) as (a & b & c & d & -> & _). reflexivity.
Qed.
(** a link to an IPv4 address written as an IPv6 one *)
Lemma link_mapped : forall listen s v4 n port, cidr_text s (mapped v4) n -> is_ip v4 -> 96 <= n -> is_port port -> listen (Some (effective_port port)) = true ->
  exists l, dataLink listen s port = ROk (Some l)
  /\ lk_port l = Some (effective_port port) /\ addr_UDPAddr (lk_my l) = Some (v4, effective_port port)
  /\ addr_UDPAddr (lk_bcast l) = Some ([0; 0; 0; 0], 47808).
Proof.
  intros listen s v4 n port H Hi Hn Hp HL.
  assert (HE : is_port (effective_port port)) by (unfold is_port, effective_port in *; destruct (port =? 0) eqn:E; lia).
  assert (EL : listened port = Some (effective_port port)) by (unfold listened; unfold is_port in HE; replace ((0 <=? effective_port port) && (effective_port port <=? 65535)) with true by lia; reflexivity).
  rewrite (link_of listen s (mapped v4) n port H), EL, HL, to4_mapped by exact (proj2 Hi).
  exists (made port (mapped v4) n v4). split; [reflexivity|]. split; [exact EL|]. split; [apply udp_of_link; assumption|].
  destruct (ip_cases v4 Hi) as (a & b & c & d & -> & _).
  assert (M : forall j, 0 <= j < 4 -> mask_octet n j = 255) by (intros j Hj; unfold mask_octet; replace (8 <=? n - 8 * j) with true by lia; reflexivity).
  unfold made, mapped. cbn [lk_bcast app]. change (zlen [0; 0; 0; 0; 0; 0; 0; 0; 0; 0; 255; 255; a; b; c; d]) with 16.
  unfold mask. change (zseq 0 (Z.to_nat 16)) with [0; 1; 2; 3; 4; 5; 6; 7; 8; 9; 10; 11; 12; 13; 14; 15]. unfold zip_with. cbn [map combine firstn fst snd].
  rewrite !M by lia. reflexivity.
Qed.

(** * The client *)
Lemma client_of : forall ifs listen cb r,
  match cb_iface cb with _ :: _ => NewUDPDataLink ifs listen (cb_iface cb) (effective_port (cb_port cb)) | [] => NewUDPDataLinkFromIP listen (cb_ip cb) (effective_port (cb_port cb)) (cb_subnet cb) end = r ->
  NewClient ifs listen cb = rbind r (fun l => ROk (mkClient l (if cb_maxpdu cb =? 0 then MaxAPDU else cb_maxpdu cb), match l with Some _ => true | None => false end)).
Proof. intros ifs listen cb r <-. reflexivity. Qed.
Lemma effective_twice : forall p, effective_port (effective_port p) = effective_port p.
Proof. intro p. unfold effective_port. destruct (p =? 0) eqn:E; [reflexivity|rewrite E; reflexivity]. Qed.
Lemma listened_twice : forall p, listened (effective_port p) = listened p.
Proof. intro p. unfold listened. rewrite effective_twice. reflexivity. Qed.
Lemma found_four : forall ifs name s, FindCIDRAddress ifs name = Some s -> exists adrs ip n v4, ifs name = Some adrs /\ In s adrs /\ cidr_text s ip n /\ To4 ip = Some v4.
Proof.
  intros ifs name s H. unfold FindCIDRAddress in H. destruct (ifs name) as [adrs|]; [|discriminate]. apply find_some in H. destruct H as [Hi H].
  destruct (ParseCIDR s) as [[ip n]|] eqn:P; [|discriminate]. destruct (To4 ip) as [v4|] eqn:T; [|discriminate]. exists adrs, ip, n, v4. apply cidr_exact in P. auto.
Qed.
Lemma sprint_decimal : forall p, 0 <= p -> decimal (sprint_d p) p.
Proof.
  intros p Hp. apply decimal_exact. unfold sprint_d. replace (p <? 0) with false by lia. split; [apply digits_ne|]. split; [apply digits_digit; exact Hp|apply number_digits; exact Hp].
Qed.
Lemma sprint_negative : forall p n, p < 0 -> ~ decimal (sprint_d p) n.
Proof. intros p n Hp (_ & D & _). unfold sprint_d in D. replace (p <? 0) with true in D by lia. inversion_clear D. lia. Qed.
Lemma decimal_unique : forall m n n', decimal m n -> decimal m n' -> n = n'.
Proof. intros m n n' (_ & _ & ->) (_ & _ & ->). reflexivity. Qed.
(** address and mask length put together *)
Lemma cidr_joined : forall a p ip n, cidr_text (a ++ 47 :: sprint_d p) ip n <-> ip_text a ip /\ n = p /\ 0 <= p <= 8 * zlen ip.
Proof.
  intros a p ip n. split.
  - intros (b & m & E & P & D & L).
    assert (C1 : cut 47 (b ++ 47 :: m) = Some (b, m)) by (apply cut_app; exact (ip_text_free b ip P)).
    assert (NA : ~ In 47 a).
    { intro Hi. apply in_split in Hi. destruct Hi as (x & y & ->).
      assert (Hm : In 47 m); [|destruct D as (_ & D & _); rewrite Forall_forall in D; specialize (D 47 Hm); cbv beta in D; lia].
      clear C1 D. revert b E P. induction x as [|c x IH]; intros b E P.
      - destruct b as [|c b]; cbn [app] in E; [|injection E as E1 E2; contradiction (ip_text_free _ _ P); left; lia].
        injection E as <-. apply in_or_app. right. left. reflexivity.
      - clear IH. pose proof (ip_text_free _ _ P) as F. clear P.
        assert (G : forall x b, (x ++ 47 :: y) ++ 47 :: sprint_d p = b ++ 47 :: m -> ~ In 47 b -> In 47 m).
        { clear. induction x as [|c x IH]; intros b E F.
          - destruct b as [|d b]; cbn [app] in E; [injection E as <-; apply in_or_app; right; left; reflexivity|]. injection E as E1 _. contradiction F. left. lia.
          - destruct b as [|d b]; cbn [app] in E; [injection E as _ <-; apply in_or_app; right; left; reflexivity|]. injection E as _ E. apply (IH b E). intro X. apply F. right. exact X. }
        exact (G (c :: x) b E F). }
    rewrite <- E, cut_app in C1 by exact NA. injection C1 as -> <-. split; [exact P|]. destruct (Z_lt_le_dec p 0) as [N|N]; [contradiction (sprint_negative p n N D)|].
    assert (n = p) by exact (decimal_unique _ _ _ D (sprint_decimal p N)). subst. auto.
  - intros (P & -> & L). exists a, (sprint_d p). split; [reflexivity|]. split; [exact P|]. split; [apply sprint_decimal; lia|lia].
Qed.
Lemma slash_in : forall s, existsb (Z.eqb 47) s = true <-> In 47 s.
Proof. intro s. rewrite existsb_exists. split; [intros (x & H & E); apply Z.eqb_eq in E; subst; exact H|intro H; exists 47; auto]. Qed.
(** exactly when NewClient panics *)
Lemma client_panics : forall ifs listen cb, NewClient ifs listen cb = RPanic <->
  (In 47 (cb_iface cb) /\ listen (listened (cb_port cb)) = true /\ exists ip n, cidr_text (cb_iface cb) ip n /\ pure6 ip)
  \/ (cb_iface cb = [] /\ listen (listened (cb_subnet cb)) = true /\ 0 <= effective_port (cb_port cb) <= 128
      /\ exists ip, ip6_text (cb_ip cb) ip /\ pure6 ip).
Proof.
  intros ifs listen cb.
  assert (R : forall r, rbind r (fun l => ROk (mkClient l (if cb_maxpdu cb =? 0 then MaxAPDU else cb_maxpdu cb), match l with Some _ => true | None => false end)) = RPanic <-> r = RPanic).
  { intros [l|]; cbn; split; try discriminate; auto. }
  rewrite (client_of ifs listen cb _ eq_refl), R. destruct (cb_iface cb) as [|x r] eqn:E.
  - unfold NewUDPDataLinkFromIP. rewrite link_panics. split.
    + intros [HL (ip & n & H & P)]. apply cidr_joined in H. destruct H as (H & -> & L). destruct H as [[H _]|H]; [destruct P as [P _]; rewrite (proj2 H) in P; discriminate|].
      right. split; [reflexivity|]. split; [exact HL|]. unfold zlen in L. rewrite (ip6_length _ _ H) in L. split; [lia|]. exists ip. auto.
    + intros [([] & _)|(_ & HL & L & ip & H & P)]. split; [exact HL|]. exists ip, (effective_port (cb_port cb)). split; [|exact P]. apply cidr_joined.
      unfold zlen. rewrite (ip6_length _ _ H). split; [right; exact H|]. split; [reflexivity|lia].
  - rewrite <- E. unfold NewUDPDataLink. change (if effective_port (cb_port cb) =? 0 then DefaultPort else effective_port (cb_port cb)) with (effective_port (effective_port (cb_port cb))). rewrite effective_twice.
    destruct (existsb (Z.eqb 47) (cb_iface cb)) eqn:S.
    + apply slash_in in S. rewrite link_panics, listened_twice. split; [intros [HL X]; left; auto|]. intros [(_ & HL & X)|(X & _)]; [auto|congruence].
    + assert (NS : ~ In 47 (cb_iface cb)) by (rewrite <- slash_in, S; discriminate). split; [|intros [(X & _)|(X & _)]; [contradiction|congruence]].
      destruct (FindCIDRAddress ifs (cb_iface cb)) as [s|] eqn:F; [|discriminate]. intro H. exfalso. apply link_panics in H. destruct H as [_ (ip & n & H & P)].
      destruct (found_four _ _ _ F) as (adrs & ip' & n' & v4 & _ & _ & H' & T). apply cidr_exact in H, H'. rewrite H in H'. injection H' as <- <-.
      apply cidr_exact in H. apply to4_none in P; [congruence|exact (cidr_length _ _ _ H)].
Qed.
Lemma find_first : forall ifs name pre s post ip n, ifs name = Some (pre ++ s :: post) ->
  (forall x ip n, In x pre -> cidr_text x ip n -> pure6 ip) -> cidr_text s ip n -> length ip = 4%nat -> FindCIDRAddress ifs name = Some s.
Proof.
  intros ifs name pre s post ip n E Hpre H L. unfold FindCIDRAddress. rewrite E. clear E. induction pre as [|x pre IH]; cbn [app find].
  - apply cidr_exact in H. rewrite H, to4_four by exact L. reflexivity.
  - assert (R : forall y ip n, In y pre -> cidr_text y ip n -> pure6 ip) by (intros y ip' n' Hy; apply Hpre; right; exact Hy).
    destruct (ParseCIDR x) as [[ip' n']|] eqn:E; [|exact (IH R)]. apply cidr_exact in E. pose proof (Hpre x ip' n' (or_introl eq_refl) E) as P.
    apply to4_none in P; [|exact (cidr_length _ _ _ E)]. rewrite P. exact (IH R).
Qed.
Lemma find_nothing : forall ifs name adrs, ifs name = Some adrs -> (forall x ip n, In x adrs -> cidr_text x ip n -> pure6 ip) -> FindCIDRAddress ifs name = None.
Proof.
  intros ifs name adrs E H. unfold FindCIDRAddress. rewrite E. clear E. induction adrs as [|x adrs IH]; [reflexivity|]. cbn [find].
  assert (R : forall y ip n, In y adrs -> cidr_text y ip n -> pure6 ip) by (intros y ip' n' Hy; apply H; right; exact Hy).
  destruct (ParseCIDR x) as [[ip' n']|] eqn:E; [|exact (IH R)]. apply cidr_exact in E. pose proof (H x ip' n' (or_introl eq_refl) E) as P.
  apply to4_none in P; [|exact (cidr_length _ _ _ E)]. rewrite P. exact (IH R).
Qed.
(** a client on an interface *)
Lemma client_named : forall ifs listen cb adrs, cb_iface cb <> [] -> ~ In 47 (cb_iface cb) -> ifs (cb_iface cb) = Some adrs -> is_port (cb_port cb) ->
  (forall pre s post ip n, adrs = pre ++ s :: post -> (forall x ip n, In x pre -> cidr_text x ip n -> pure6 ip) -> cidr_text s ip n -> length ip = 4%nat ->
    (listen (Some (effective_port (cb_port cb))) = true ->
     exists l bc, NewClient ifs listen cb = ROk (mkClient (Some l) (if cb_maxpdu cb =? 0 then MaxAPDU else cb_maxpdu cb), true)
     /\ lk_port l = Some (effective_port (cb_port cb)) /\ addr_UDPAddr (lk_my l) = Some (ip, effective_port (cb_port cb))
     /\ addr_UDPAddr (lk_bcast l) = Some (bc, 47808) /\ subnet_bcast ip n bc)
    /\ (listen (Some (effective_port (cb_port cb))) = false ->
        NewClient ifs listen cb = ROk (mkClient None (if cb_maxpdu cb =? 0 then MaxAPDU else cb_maxpdu cb), false)))
  /\ ((forall x ip n, In x adrs -> cidr_text x ip n -> pure6 ip) ->
      NewClient ifs listen cb = ROk (mkClient None (if cb_maxpdu cb =? 0 then MaxAPDU else cb_maxpdu cb), false)).
Proof.
  intros ifs listen cb adrs Hne NS Hif Hp.
  assert (S : existsb (Z.eqb 47) (cb_iface cb) = false) by (apply not_true_is_false; rewrite slash_in; exact NS).
  assert (EC : NewClient ifs listen cb = rbind (match FindCIDRAddress ifs (cb_iface cb) with None => ROk None | Some addr => dataLink listen addr (effective_port (cb_port cb)) end)
    (fun l => ROk (mkClient l (if cb_maxpdu cb =? 0 then MaxAPDU else cb_maxpdu cb), match l with Some _ => true | None => false end))).
  { apply client_of. destruct (cb_iface cb) as [|x r] eqn:E; [contradiction Hne; reflexivity|]. rewrite <- E in *. unfold NewUDPDataLink. rewrite S.
    change (if effective_port (cb_port cb) =? 0 then DefaultPort else effective_port (cb_port cb)) with (effective_port (effective_port (cb_port cb))). rewrite effective_twice. reflexivity. }
  rewrite EC. split.
  - intros pre s post ip n -> Hpre H L. rewrite (find_first _ _ pre s post ip n Hif Hpre H L).
    assert (HE : is_port (effective_port (cb_port cb))) by (unfold is_port, effective_port in *; destruct (cb_port cb =? 0) eqn:E; lia). split; intro HL.
    + destruct (link_four listen s ip n (effective_port (cb_port cb)) H L HE ltac:(rewrite effective_twice; exact HL)) as (l & bc & E & R). rewrite E. rewrite effective_twice in R.
      exists l, bc. split; [reflexivity|exact R].
    + rewrite (link_of listen s ip n _ H), listened_twice. unfold listened. unfold is_port in HE.
      replace ((0 <=? effective_port (cb_port cb)) && (effective_port (cb_port cb) <=? 65535)) with true by lia. rewrite HL. reflexivity.
  - intro H. rewrite (find_nothing _ _ _ Hif H). reflexivity.
Qed.
Lemma client_unknown : forall ifs listen cb, cb_iface cb <> [] -> ~ In 47 (cb_iface cb) -> ifs (cb_iface cb) = None ->
  NewClient ifs listen cb = ROk (mkClient None (if cb_maxpdu cb =? 0 then MaxAPDU else cb_maxpdu cb), false).
Proof.
  intros ifs listen cb Hne NS Hif. assert (S : existsb (Z.eqb 47) (cb_iface cb) = false) by (apply not_true_is_false; rewrite slash_in; exact NS).
  rewrite (client_of ifs listen cb (ROk None)); [reflexivity|]. destruct (cb_iface cb) as [|x r] eqn:E; [contradiction Hne; reflexivity|]. rewrite <- E in *.
  unfold NewUDPDataLink, FindCIDRAddress. rewrite S, Hif. reflexivity.
Qed.

(** * Devices *)
Lemma meant_bytes : forall gs t, Forall is_group gs -> tail_ok t -> is_bytes (meant gs t).
Proof.
  intros gs t Hg Ht. unfold meant. apply Forall_app. split; [|destruct t as [ip|]; [exact (proj1 Ht)|constructor]].
  induction Hg as [|g gs G Hg IH]; [constructor|]. cbn [flat_map]. apply Forall_app. split; [|exact IH]. rewrite group_octets by exact G.
  destruct G as (_ & G & L). pose proof (group_num_nonneg g G). repeat apply Forall_cons; [unfold is_byte; lia|unfold is_byte; lia|constructor].
Qed.
Lemma ip6_bytes : forall s ip, ip6_text s ip -> is_bytes ip.
Proof.
  intros s ip H. destruct H as [gs t Hg Ht HL|gs hs t Hg Hh Ht HL]; [apply meant_bytes; assumption|].
  apply Forall_app. split; [apply meant_bytes; [assumption|exact I]|]. apply Forall_app. split; [|apply meant_bytes; assumption].
  apply Forall_forall. intros x Hx. apply repeat_spec in Hx. subst. unfold is_byte. lia.
Qed.
Lemma text_four : forall s ip v4, ip_text s ip -> To4 ip = Some v4 -> is_ip v4 /\ (s = spec_dotted v4 \/ ip6_text s (mapped v4)).
Proof.
  intros s ip v4 H T. destruct (to4_some ip v4 (text_length s ip H) T) as [L E]. destruct H as [[H ->]|H].
  - destruct E as [-> | ->]; [auto|]. destruct H as [_ H]. unfold mapped in H. rewrite app_length, L in H. discriminate.
  - destruct E as [-> | ->]; [apply ip6_length in H; congruence|]. split; [|right; exact H]. split; [|exact L].
    apply ip6_bytes in H. unfold mapped in H. apply Forall_app in H. exact (proj2 H).
Qed.
Lemma pack_text : forall s ip v4, ip_text s ip -> To4 ip = Some v4 -> is_ip v4 -> pack32BinaryIP4 s = v4.
Proof.
  intros s ip v4 H T Hi. rewrite <- (pack_ip v4 Hi) at 1. unfold pack32BinaryIP4. rewrite parse_dotted by exact Hi. apply parse_exact in H. rewrite H.
  unfold ip4toInt. rewrite T, to4_four by exact (proj2 Hi). reflexivity.
Qed.
Lemma device_named : forall b v4, is_ip v4 -> bd_ip b = spec_dotted v4 \/ ip6_text (bd_ip b) (mapped v4) -> is_port (bd_port b) ->
  0 <= bd_net b < 65536 -> is_byte (bd_mac b) ->
  bd_addr (NewBDevice b) = mkAddr (bd_net b) 0 0 (v4 ++ octets 2 (effective_port (bd_port b))) [bd_mac b].
Proof.
  intros b v4 Hi H Hp Hn Hm. destruct H as [H|H]; [apply new_address; assumption|].
  assert (E : pack32BinaryIP4 (bd_ip b) = pack32BinaryIP4 (spec_dotted v4)).
  { rewrite pack_ip by exact Hi. apply (pack_text _ (mapped v4)); [right; exact H|apply to4_mapped; exact (proj2 Hi)|exact Hi]. }
  pose (b' := mkBD (bd_id b) (bd_deviceid b) (spec_dotted v4) (bd_port b) (bd_net b) (bd_mac b) (bd_maxapdu b) (bd_seg b) (bd_vendor b) (bd_addr b) (bd_name b) (bd_vendorname b)).
  assert (X : bd_addr (NewBDevice b) = bd_addr (NewBDevice b')) by (unfold NewBDevice, b'; cbn [bd_addr bd_net bd_mac bd_port bd_ip]; unfold ip2bytes; rewrite E; reflexivity).
  rewrite X. exact (new_address b' v4 eq_refl Hi Hp Hn Hm).
Qed.
Lemma device_unnamed : forall b, (forall v4, is_ip v4 -> bd_ip b <> spec_dotted v4 /\ ~ ip6_text (bd_ip b) (mapped v4)) -> is_port (bd_port b) ->
  addr_UDPAddr (bd_addr (NewBDevice b)) = Some ([0; 0; 0; 0], effective_port (bd_port b)).
Proof.
  intros b H Hp. assert (E : ip4toInt (ParseIP (bd_ip b)) = 0).
  { unfold ip4toInt. destruct (ParseIP (bd_ip b)) as [ip|] eqn:P; [|reflexivity]. destruct (To4 ip) as [v4|] eqn:T; [|reflexivity]. exfalso.
    apply parse_exact in P. destruct (text_four _ _ _ P T) as [Hi [X|X]]; destruct (H v4 Hi) as [A B]; contradiction. }
  pose (b' := mkBD (bd_id b) (bd_deviceid b) [] (bd_port b) (bd_net b) (bd_mac b) (bd_maxapdu b) (bd_seg b) (bd_vendor b) (bd_addr b) (bd_name b) (bd_vendorname b)).
  assert (X : bd_addr (NewBDevice b) = bd_addr (NewBDevice b')) by (unfold NewBDevice, b'; cbn [bd_addr bd_net bd_mac bd_port bd_ip]; unfold ip2bytes, pack32BinaryIP4; rewrite E; reflexivity).
  rewrite X. exact (invalid_ip_address b' eq_refl Hp).
Qed.

(** * Validation *)
Lemma trim_exact : forall t s a, trim_suffix t s = Some a <-> s = a ++ t.
Proof.
  intros t s a. unfold trim_suffix. split.
  - destruct (text_eqb (skipn (length s - length t) s) t) eqn:E; [|discriminate]. apply text_eqb_eq in E. intro H. injection H as <-.
    set (k := (length s - length t)%nat) in *. transitivity (firstn k s ++ skipn k s); [symmetry; apply firstn_skipn|rewrite E; reflexivity].
  - intros ->. rewrite app_length. replace (length a + length t - length t)%nat with (length a) by lia.
    rewrite skipn_app, skipn_all, Nat.sub_diag, firstn_app, firstn_all, Nat.sub_diag, firstn_O, app_nil_r. cbn [app skipn]. rewrite text_eqb_refl. reflexivity.
Qed.
Lemma trim_none : forall t s, (forall a, s <> a ++ t) -> trim_suffix t s = None.
Proof. intros t s H. destruct (trim_suffix t s) as [a|] eqn:E; [|reflexivity]. apply trim_exact in E. contradiction (H a E). Qed.
Lemma normalise_text : forall ip, NormaliseIPAddr ip =
  match trim_suffix [47; 51; 50] ip with
  | Some a => if existsb (Z.eqb 46) ip then a else match trim_suffix [47; 49; 50; 56] ip with Some a => a | None => ip end
  | None => match trim_suffix [47; 49; 50; 56] ip with Some a => a | None => ip end
  end.
Proof. reflexivity. Qed.
Lemma valid_ip : forall s, ValidIP s = true <->
  exists t ip, ip_text t ip /\ (s = t \/ (s = t ++ [47; 51; 50] /\ In 46 t) \/ s = t ++ [47; 49; 50; 56]).
Proof.
  intro s. unfold ValidIP.
  assert (V : forall t, (match ParseIP t with Some _ => true | None => false end) = true <-> exists ip, ip_text t ip).
  { intro t. destruct (ParseIP t) as [ip|] eqn:P; [apply parse_exact in P; split; [eauto|reflexivity]|]. split; [discriminate|]. intros [ip H]. apply parse_exact in H. congruence. }
  rewrite V. rewrite normalise_text.
  assert (D : forall a b : text, a ++ [47; 51; 50] <> b ++ [47; 49; 50; 56]).
  { intros a b E. apply (f_equal (@rev Z)) in E. rewrite !rev_app_distr in E. cbn in E. discriminate. }
  assert (F : forall t ip r, ip_text t ip -> t <> r ++ [47; 51; 50] /\ t <> r ++ [47; 49; 50; 56]).
  { intros t ip r H. apply ip_text_free in H. split; intros ->; apply H; apply in_or_app; right; left; reflexivity. }
  assert (DOT : forall t, existsb (Z.eqb 46) (t ++ [47; 51; 50]) = true <-> In 46 t).
  { intro t. rewrite existsb_exists. split.
    - intros (x & Hx & E). apply Z.eqb_eq in E. subst x. apply in_app_or in Hx. destruct Hx as [Hx|[Hx|[Hx|[Hx|[]]]]]; [exact Hx|lia|lia|lia].
    - intro H. exists 46. split; [apply in_or_app; left; exact H|reflexivity]. }
  destruct (trim_suffix [47; 51; 50] s) as [a|] eqn:T32.
  - apply trim_exact in T32. subst s. rewrite (trim_none [47; 49; 50; 56] (a ++ [47; 51; 50]) (D a)). destruct (existsb (Z.eqb 46) (a ++ [47; 51; 50])) eqn:E.
    + apply DOT in E. split.
      * intros [ip H]. exists a, ip. auto.
      * intros (t & ip & H & [X|[[X _]|X]]); [destruct (F t ip a H) as [Y _]; congruence|apply app_inv_tail in X; subst; eauto|contradiction (D _ _ X)].
    + split.
      * intros [ip H]. destruct (F _ _ a H) as [Y _]. contradiction Y. reflexivity.
      * intros (t & ip & H & [X|[[X Y]|X]]); [destruct (F t ip a H) as [Y _]; congruence| |contradiction (D _ _ X)].
        apply app_inv_tail in X. subst. apply DOT in Y. congruence.
  - assert (N32 : forall t, s <> t ++ [47; 51; 50]) by (intros t X; apply trim_exact in X; congruence). destruct (trim_suffix [47; 49; 50; 56] s) as [a|] eqn:T128.
    + apply trim_exact in T128. subst s. split.
      * intros [ip H]. exists a, ip. auto.
      * intros (t & ip & H & [X|[[X _]|X]]); [destruct (F t ip a H) as [_ Y]; congruence|contradiction (N32 _ X)|apply app_inv_tail in X; subst; eauto].
    + split; [intros [ip H]; exists s, ip; auto|]. intros (t & ip & H & [X|[[X _]|X]]); [subst; eauto|contradiction (N32 _ X)|apply trim_exact in X; congruence].
Qed.
Lemma valid_cidr : forall s n, ValidCIDR s n = true <-> exists ip, ip_text s ip /\ 0 <= n <= 8 * zlen ip.
Proof.
  intros s n. unfold ValidCIDR. split.
  - destruct (ParseCIDR (s ++ 47 :: sprint_d n)) as [[ip k]|] eqn:P; [|discriminate]. intros _. apply cidr_exact, cidr_joined in P. destruct P as (H & _ & L). exists ip. auto.
  - intros (ip & H & L). assert (C : cidr_text (s ++ 47 :: sprint_d n) ip n) by (apply cidr_joined; auto). apply cidr_exact in C. rewrite C. reflexivity.
Qed.
