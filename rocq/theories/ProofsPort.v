(** * Proofs: port validation *)
From Coq Require Import ZArith List Bool Lia ZifyBool ZifyNat.
From Verif Require Import ModelTypes ProofsWire.
Import ListNotations.
Open Scope Z_scope.

Lemma rx_len : forall its s, rx_seq its s = true -> (length s <= fold_right (fun i n => rx_max i + n) 0 its)%nat \/ exists i, In i its /\ (rx_max i < rx_min i)%nat.
Proof.
  induction its as [|i its IH]; intros s H; cbn [rx_seq fold_right] in *.
  - destruct s; [left; cbn; lia|discriminate].
  - apply existsb_exists in H. destruct H as (k & Hk & H). apply in_seq in Hk.
    apply andb_prop in H. destruct H as [H H3]. apply andb_prop in H. destruct H as [H1 H2].
    destruct (IH _ H3) as [L|(j & Hj & Hlt)]; [|right; exists j; split; [right; assumption|assumption]].
    destruct (Nat.lt_ge_cases (rx_max i) (rx_min i)) as [Hlt|Hge]; [right; exists i; split; [left; reflexivity|exact Hlt]|].
    left. rewrite skipn_length in L. apply Nat.leb_le in H1. lia.
Qed.
Lemma digits_fuel_len : forall f n, 0 <= n -> (10 ^ Z.of_nat f <= n)%Z -> (f + 1 <= length (digits_fuel (f + 1) n))%nat.
Proof.
  induction f as [|f IH]; intros n Hn H; cbn [Nat.add digits_fuel].
  - destruct (n <? 10); rewrite ?app_length; cbn; lia.
  - assert (10 <= n). { assert (0 < 10 ^ Z.of_nat f) by (apply Z.pow_pos_nonneg; lia). replace (Z.of_nat (S f)) with (Z.of_nat f + 1) in H by lia. rewrite Z.pow_add_r in H by lia. change (10 ^ 1) with 10 in H. nia. }
    replace (n <? 10) with false by lia. rewrite app_length. cbn [length].
    assert (f + 1 <= length (digits_fuel (f + 1) (n / 10)))%nat; [|lia]. apply IH; [lia|].
    replace (Z.of_nat (S f)) with (Z.of_nat f + 1) in H by lia. rewrite Z.pow_add_r in H by lia. change (10 ^ 1) with 10 in H.
    apply Z.div_le_lower_bound; lia.
Qed.
Lemma digits_fuel_more : forall f n, (length (digits_fuel f n) <= length (digits_fuel (S f) n))%nat.
Proof.
  induction f as [|f IH]; intro n; [cbn; lia|]. cbn [digits_fuel]. destruct (n <? 10); [lia|]. rewrite !app_length. cbn [length].
  specialize (IH (n / 10)). cbn [digits_fuel] in IH. lia.
Qed.
Lemma digits_fuel_mono : forall f g n, (f <= g)%nat -> (length (digits_fuel f n) <= length (digits_fuel g n))%nat.
Proof. intros f g n H. induction H as [|g H IH]; [lia|]. pose proof (digits_fuel_more g n). lia. Qed.
Lemma digits_long : forall n, 100000 <= n -> (6 <= length (digits n))%nat.
Proof.
  intros n H. unfold digits.
  assert (16 <= Z.log2 n) by (apply Z.log2_le_pow2; [lia|change (2 ^ 16) with 65536; lia]).
  pose proof (digits_fuel_len 5 n ltac:(lia) ltac:(change (10 ^ Z.of_nat 5) with 100000; lia)) as L. change (5 + 1)%nat with 6%nat in L.
  pose proof (digits_fuel_mono 6 (S (Z.to_nat (Z.log2 n))) n ltac:(lia)). lia.
Qed.
Lemma rx_chars : forall its s, (forall i, In i its -> 48 <= rx_lo i) -> rx_seq its s = true -> forall x, In x s -> 48 <= x.
Proof.
  induction its as [|i its IH]; intros s Hl H x Hx; cbn [rx_seq] in *.
  - destruct s; [contradiction|discriminate].
  - apply existsb_exists in H. destruct H as (k & Hk & H).
    apply andb_prop in H. destruct H as [H H3]. apply andb_prop in H. destruct H as [H1 H2].
    rewrite <- (firstn_skipn k s) in Hx. apply in_app_or in Hx. destruct Hx as [Hx|Hx].
    + rewrite forallb_forall in H2. specialize (H2 x Hx). specialize (Hl i (or_introl eq_refl)). lia.
    + apply (IH (skipn k s)); [intros j Hj; apply Hl; right; exact Hj|exact H3|exact Hx].
Qed.
Lemma port_items : forallb (forallb (fun i => 48 <=? rx_lo i)) port_rx = true.
Proof. reflexivity. Qed.
Lemma port_width : forallb (fun r => (fold_right (fun i n => rx_max i + n) 0 r <=? 5)%nat && forallb (fun i => rx_min i <=? rx_max i)%nat r) port_rx = true.
Proof. reflexivity. Qed.
Lemma valid_port : forall p, ValidPort p = true <-> 0 <= p <= 65535.
Proof.
  intro p. unfold ValidPort, sprint_d. destruct (p <? 0) eqn:En.
  - split; [|lia]. intro H. exfalso. apply existsb_exists in H. destruct H as (r & Hr & H).
    pose proof port_items as P. rewrite forallb_forall in P. specialize (P r Hr). rewrite forallb_forall in P.
    pose proof (rx_chars r _ (fun i Hi => proj1 (Z.leb_le _ _) (P i Hi)) H 45 (or_introl eq_refl)). lia.
  - destruct (Z.lt_ge_cases p 100000) as [Hs|Hl].
    + assert (X : Bool.eqb (existsb (fun r => rx_seq r (digits p)) port_rx) (p <=? 65535) = true).
      { pose proof (sweep2 400 250 (fun a b => Bool.eqb (existsb (fun r => rx_seq r (digits (250 * a + b))) port_rx) (250 * a + b <=? 65535)) ltac:(vm_compute; reflexivity) (p / 250) (p mod 250) ltac:(lia) ltac:(lia)) as X. cbn beta in X.
        replace (250 * (p / 250) + p mod 250) with p in X by lia. exact X. }
      apply Bool.eqb_prop in X. rewrite X. lia.
    + split; [|lia]. intro H. exfalso. apply existsb_exists in H. destruct H as (r & Hr & H). apply rx_len in H. pose proof (digits_long p Hl).
      pose proof port_width as P. rewrite forallb_forall in P. specialize (P r Hr). apply andb_prop in P. destruct P as [P1 P2]. rewrite forallb_forall in P2.
      apply Nat.leb_le in P1. destruct H as [H|(i & Hi & H)]; [lia|]. specialize (P2 i Hi). apply Nat.leb_le in P2. lia.
Qed.
