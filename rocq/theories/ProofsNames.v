(** Proofs about the texts of enumerations (ModelNames). *)
From Coq Require Import String ZArith Lia ZifyBool ZifyNat List.
From Verif Require Import ModelNames SpecWire SpecLayers SpecServices SpecObs SpecClient SpecNet SpecCmd SpecNames
  ProofsWire ProofsLayers ProofsRecv ProofsTypes ProofsNet ProofsCmd.
Import ListNotations.
Close Scope string_scope.
Open Scope list_scope.
Open Scope Z_scope.

(** * decimal notation *)
Lemma numeral_fuel : forall f n, 0 <= n < 10 ^ Z.of_nat f -> (0 < f)%nat -> numeral (digits_fuel f n) n.
Proof.
  induction f as [|f IH]; intros n Hn Hf; [lia|]. cbn [digits_fuel]. destruct (n <? 10) eqn:E.
  - constructor. lia.
  - assert (1 <= n / 10) by (apply Z.div_le_lower_bound; lia).
    rewrite Nat2Z.inj_succ, Z.pow_succ_r in Hn by lia.
    assert (n / 10 < 10 ^ Z.of_nat f) by (apply Z.div_lt_upper_bound; lia).
    replace n with (10 * (n / 10) + n mod 10) at 3 by (pose proof (Z.div_mod n 10); lia). constructor; [|pose proof (Z.mod_pos_bound n 10); lia].
    apply IH; [lia|]. destruct f; [cbn in *; lia|lia].
Qed.
Lemma numeral_sprint : forall n, 0 <= n -> numeral (sprint_d n) n.
Proof.
  intros n Hn. unfold sprint_d. replace (n <? 0) with false by lia. unfold digits. apply numeral_fuel; [|lia].
  split; [lia|]. destruct (Z.eq_dec n 0) as [->|N]; [reflexivity|].
  destruct (Z.log2_spec n ltac:(lia)) as [_ H]. pose proof (Z.log2_nonneg n).
  rewrite Nat2Z.inj_succ, Z2Nat.id by lia. eapply Z.lt_le_trans; [exact H|]. apply Z.pow_le_mono_l. lia.
Qed.

(** * one method *)
Definition named_ok (f : Z -> res text) (t : list (Z * text)) : bool :=
  forallb (fun x => match f (fst x) with ROk s => text_eqb s (snd x) | RPanic => false end) t.
Definition has (n : Z) (t : list (Z * text)) : bool := existsb (fun x => fst x =? n) t.
Lemma has_in : forall n t, has n t = true <-> In n (map fst t).
Proof.
  intros n t. unfold has. rewrite existsb_exists, in_map_iff. split; intros (x & H); exists x; [split; [lia|tauto]|].
  split; [tauto|]. lia.
Qed.
Lemma named_shows : forall f t, named_ok f t = true -> forall n s, In (n, s) t -> f n = ROk s.
Proof.
  intros f t H n s Hi. unfold named_ok in H. rewrite forallb_forall in H. specialize (H _ Hi). cbn [fst snd] in H.
  destruct (f n) as [s'|]; [|discriminate]. apply text_eqb_eq in H. congruence.
Qed.
Definition all_named (a : Z) (n : nat) (t : list (Z * text)) : bool := forallb (fun i => has (a + i) t) (zrange n).
Lemma all_named_in : forall a n t, all_named a n t = true -> forall x, a <= x < a + Z.of_nat n -> In x (map fst t).
Proof.
  intros a n t H x Hx. apply has_in. pose proof (sweep1 n _ H (x - a) ltac:(lia)) as E. cbv beta in E.
  replace (a + (x - a)) with x in E by lia. exact E.
Qed.
Lemma table_shows : forall k, named_ok (shows k) (table k) = true.
Proof. intros []; vm_compute; reflexivity. Qed.
Lemma default_shows : forall k n, 0 <= n < limit k -> ~ In n (map fst (table k)) ->
  shows k n = ROk (kind_name k ++ [40] ++ sprint_d n ++ [41]).
Proof.
  intros k n Hn Hi. destruct k; cbn [shows table limit] in *.
  - pose proof (all_named_in 0 8 named_class eq_refl n) as A.
    unfold class_String. replace (8 <=? n) with true by (destruct (8 <=? n) eqn:E; [reflexivity|elim Hi; apply A; lia]). reflexivity.
  - pose proof (all_named_in 0 33 named_code eq_refl n) as A. pose proof (all_named_in 34 103 named_code eq_refl n) as B.
    unfold code_String. replace (n <=? 32) with false by (destruct (n <=? 32) eqn:E; [elim Hi; apply A; lia|reflexivity]).
    replace ((34 <=? n) && (n <=? 136)) with false by (destruct ((34 <=? n) && (n <=? 136)) eqn:E; [elim Hi; apply B; lia|reflexivity]). reflexivity.
  - pose proof (all_named_in 0 105 named_unit eq_refl n) as A. pose proof (all_named_in 115 108 named_unit eq_refl n) as B.
    pose proof (all_named_in 224 13 named_unit eq_refl n) as C.
    unfold unit_String. replace (n <=? 104) with false by (destruct (n <=? 104) eqn:E; [elim Hi; apply A; lia|reflexivity]).
    replace ((115 <=? n) && (n <=? 222)) with false by (destruct ((115 <=? n) && (n <=? 222)) eqn:E; [elim Hi; apply B; lia|reflexivity]).
    replace ((224 <=? n) && (n <=? 236)) with false by (destruct ((224 <=? n) && (n <=? 236)) eqn:E; [elim Hi; apply C; lia|reflexivity]). reflexivity.
  - pose proof (all_named_in 0 4 named_seg eq_refl n) as A.
    unfold seg_String. replace (4 <=? n) with true by (destruct (4 <=? n) eqn:E; [reflexivity|elim Hi; apply A; lia]). reflexivity.
  - pose proof (all_named_in 0 2 named_netmsg eq_refl n) as A. pose proof (all_named_in 18 2 named_netmsg eq_refl n) as B.
    unfold netmsg_String. replace (n <=? 1) with false by (destruct (n <=? 1) eqn:E; [elim Hi; apply A; lia|reflexivity]).
    replace ((18 <=? n) && (n <=? 19)) with false by (destruct ((18 <=? n) && (n <=? 19)) eqn:E; [elim Hi; apply B; lia|reflexivity]). reflexivity.
Qed.
Lemma in_fst : forall n (t : list (Z * text)), In n (map fst t) -> exists s, In (n, s) t.
Proof. intros n t H. apply in_map_iff in H. destruct H as ([m s] & <- & H). eauto. Qed.
Lemma shows_tells : forall k n, 0 <= n < limit k -> exists s, shows k n = ROk s /\ tells k n s.
Proof.
  intros k n Hn. destruct (in_dec Z.eq_dec n (map fst (table k))) as [Hi|Hi].
  - destruct (in_fst _ _ Hi) as [s Hs]. exists s. split; [exact (named_shows _ _ (table_shows k) n s Hs)|left; exact Hs].
  - eexists. split; [exact (default_shows k n Hn Hi)|]. right. split; [exact Hi|]. exists (sprint_d n). split; [apply numeral_sprint; lia|reflexivity].
Qed.

(** * texts tell numbers apart *)
Definition no_paren (t : list (Z * text)) : bool := forallb (fun x => forallb (fun c => negb (c =? 40)) (snd x)) t.
Definition apart (t : list (Z * text)) : bool :=
  forallb (fun x => forallb (fun y => negb (text_eqb (snd x) (snd y)) || (fst x =? fst y)) t) t.
Lemma table_paren : forall k, no_paren (table k) = true.
Proof. intros []; vm_compute; reflexivity. Qed.
Lemma table_apart : forall k, apart (table k) = true.
Proof. intros []; vm_compute; reflexivity. Qed.
Lemma paren_named : forall k n s, In (n, s) (table k) -> ~ In 40 s.
Proof.
  intros k n s H Hi. pose proof (table_paren k) as P. unfold no_paren in P. rewrite forallb_forall in P. specialize (P _ H). cbn [snd] in P.
  rewrite forallb_forall in P. specialize (P _ Hi). discriminate.
Qed.
Lemma numeral_inj : forall s n m, numeral s n -> numeral s m -> n = m.
Proof. intros s n m A B. apply numeral_digits in A. apply numeral_digits in B. destruct A as (_ & _ & _ & A), B as (_ & _ & _ & B). congruence. Qed.
Lemma tells_apart : forall k n m s, tells k n s -> tells k m s -> n = m.
Proof.
  intros k n m s [A|(A & d & NA & EA)] [B|(B & e & NB & EB)].
  - pose proof (table_apart k) as P. unfold apart in P. rewrite forallb_forall in P. specialize (P _ A). rewrite forallb_forall in P.
    specialize (P _ B). cbn [fst snd] in P. rewrite text_eqb_refl in P. cbn [negb orb] in P. lia.
  - elim (paren_named k n s A). rewrite EB. apply in_or_app. right. left. reflexivity.
  - elim (paren_named k m s B). rewrite EA. apply in_or_app. right. left. reflexivity.
  - rewrite EA in EB. apply app_inv_head in EB. apply app_inv_head in EB. apply app_inv_tail in EB. subst e.
    eapply numeral_inj; eassumption.
Qed.
Lemma shows_apart : forall k n m, 0 <= n < limit k -> 0 <= m < limit k -> shows k n = shows k m -> n = m.
Proof.
  intros k n m Hn Hm E. destruct (shows_tells k n Hn) as (s & E1 & T1). destruct (shows_tells k m Hm) as (s' & E2 & T2).
  rewrite E1, E2 in E. injection E as <-. eapply tells_apart; eassumption.
Qed.

(** * errors *)
Lemma error_tells : forall c x, 0 <= c < 65536 -> 0 <= x < 4294967296 -> exists s, error_text c x = ROk s /\ tells_error c x s.
Proof.
  intros c x Hc Hx. destruct (shows_tells KClass c Hc) as (a & E1 & T1). destruct (shows_tells KCode x Hx) as (b & E2 & T2).
  cbn [shows] in *. unfold error_text. rewrite E1. cbn [rbind]. rewrite E2. cbn [rbind]. eexists. split; [reflexivity|]. exists a, b. auto.
Qed.
Definition no_space (t : list (Z * text)) : bool := forallb (fun x => forallb (fun c => negb (c =? 32)) (snd x)) t.
Lemma class_space : forall c a, tells KClass c a -> ~ In 32 a.
Proof.
  intros c a [H|(_ & d & N & ->)] Hi.
  - assert (P : no_space named_class = true) by (vm_compute; reflexivity). unfold no_space in P. rewrite forallb_forall in P. specialize (P _ H).
    cbn [snd] in P. rewrite forallb_forall in P. specialize (P _ Hi). discriminate.
  - apply numeral_digits in N. destruct N as (_ & F & _). rewrite Forall_forall in F.
    apply in_app_or in Hi. destruct Hi as [Hi|Hi]; [vm_compute in Hi; intuition discriminate|].
    apply in_app_or in Hi. destruct Hi as [[Hi|[]]|Hi]; [discriminate|].
    apply in_app_or in Hi. destruct Hi as [Hi|[Hi|[]]]; [|discriminate]. specialize (F _ Hi). lia.
Qed.
Lemma until_space : forall a b x y, ~ In 32 a -> ~ In 32 b -> a ++ 32 :: x = b ++ 32 :: y -> a = b /\ x = y.
Proof.
  induction a as [|c a IH]; intros [|d b] x y Ha Hb E; cbn [app] in E.
  - injection E as E. auto.
  - injection E as E0 E. elim Hb. left. lia.
  - injection E as E0 E. elim Ha. left. lia.
  - injection E as -> E. destruct (IH b x y) as [-> ->]; auto; intro; [apply Ha|apply Hb]; right; assumption.
Qed.
Lemma error_apart : forall c x c' x' s, tells_error c x s -> tells_error c' x' s -> c = c' /\ x = x'.
Proof.
  intros c x c' x' s (a & b & A & B & E) (a' & b' & A' & B' & E'). rewrite E in E'. apply app_inv_head in E'.
  change (txt " code "%string) with (32 :: txt "code "%string) in E'. cbn [app] in E'.
  destruct (until_space a a' _ _ (class_space _ _ A) (class_space _ _ A') E') as [-> E2]. apply app_inv_head in E2. subst b'.
  split; eapply tells_apart; eassumption.
Qed.
Lemma recv_error_bracketed : forall known src f n t inv svc c k rest, frame_func f -> npdu_ok n -> n_netmsg n = false ->
  0 <= t < 256 -> 0 <= c < 65536 -> 0 <= k < 4294967296 ->
  handleMsg known src (spec_bvlc f (spec_npdu n ++ spec_error_bracketed t inv svc c k ++ rest)) = ([EDeliver inv (PErr c k)], false).
Proof.
  intros known src f n t inv svc c k rest Hf Hn Hm Ht Hc Hk.
  destruct (recv_frame known src f n (spec_error_bracketed t inv svc c k ++ rest) Hf Hn Hm) as [p E]. rewrite E. unfold handle_apdu.
  destruct (dec_error_bracketed t inv svc c k rest p Ht Hc Hk) as [d [E' _]]. rewrite E'. reflexivity.
Qed.
(** what a read returns for the answer delivered from a frame *)
Lemma read_error : forall e me dev ip port net mac id o p idx b c x, dv_addr dev = mkAddr net 0 0 (ip ++ octets 2 port) [mac] ->
  is_ip ip -> is_port port -> 0 <= net < 65536 -> is_byte mac -> own me -> valid_oid o -> valid_property p -> in_u32 idx ->
  answered_by e ip port net mac id o p idx b -> (forall known src, handleMsg known src b = ([EDeliver id (PErr c x)], false)) ->
  snd (ReadProperty e me dev (request o p idx)) = CErr (CPdu c x).
Proof.
  intros e me dev ip port net mac id o p idx b c x Ed Hi Hp Hn Hm Hme Ho Hpr Hx (Hid & Hb & Hs & known & src & pl & HM & HR) HE.
  rewrite HE in HM. injection HM as <-.
  destruct (read_at e me dev ip port net mac o p idx Ed Hi Hp Hn Hm (own_absent me Hme) Ho Hpr Hx) as [_ R].
  destruct (R id Hid Hb) as (_ & _ & _ & R4 & _). exact (R4 Hs c x HR).
Qed.
Lemma read_standard_error : forall e me dev ip port net mac id o p idx f n svc c x, dv_addr dev = mkAddr net 0 0 (ip ++ octets 2 port) [mac] ->
  is_ip ip -> is_port port -> 0 <= net < 65536 -> is_byte mac -> own me -> valid_oid o -> valid_property p -> in_u32 idx ->
  frame_func f -> npdu_ok n -> n_netmsg n = false -> 0 <= c < 240 -> 0 <= x < 256 ->
  answered_by e ip port net mac id o p idx (spec_bvlc f (spec_npdu n ++ spec_error id svc c x)) ->
  exists x' s, snd (ReadProperty e me dev (request o p idx)) = CErr (CPdu c x') /\ error_text c x' = ROk s
  /\ tells_error c (if c mod 8 =? 5 then x else 145) s.
Proof.
  intros e me dev ip port net mac id o p idx f n svc c x Ed Hi Hp Hn Hm Hme Ho Hpr Hx Hf Hnp Hnm Hc Hk HA.
  exists (if c mod 8 =? 5 then x else 145).
  destruct (error_tells c (if c mod 8 =? 5 then x else 145) ltac:(lia) ltac:(destruct (_ =? _); lia)) as (s & E & T). exists s.
  split; [|split; [exact E|exact T]].
  eapply read_error; try eassumption. intros known src. apply recv_error; assumption.
Qed.
Lemma read_bracketed_error : forall e me dev ip port net mac id o p idx f n t svc c x rest, dv_addr dev = mkAddr net 0 0 (ip ++ octets 2 port) [mac] ->
  is_ip ip -> is_port port -> 0 <= net < 65536 -> is_byte mac -> own me -> valid_oid o -> valid_property p -> in_u32 idx ->
  frame_func f -> npdu_ok n -> n_netmsg n = false -> 0 <= t < 256 -> 0 <= c < 65536 -> in_u32 x ->
  answered_by e ip port net mac id o p idx (spec_bvlc f (spec_npdu n ++ spec_error_bracketed t id svc c x ++ rest)) ->
  exists s, snd (ReadProperty e me dev (request o p idx)) = CErr (CPdu c x) /\ error_text c x = ROk s /\ tells_error c x s.
Proof.
  intros e me dev ip port net mac id o p idx f n t svc c x rest Ed Hi Hp Hn Hm Hme Ho Hpr Hx Hf Hnp Hnm Ht Hc Hk HA.
  unfold in_u32 in Hk. destruct (error_tells c x Hc ltac:(lia)) as (s & E & T). exists s.
  split; [|split; [exact E|exact T]].
  eapply read_error; try eassumption. intros known src. apply recv_error_bracketed; assumption.
Qed.

(** * units *)
Lemma unit_shown : forall k envs me d ip port net mac t i prio r u, opened d ip port net mac -> own me -> valid_oid (mkOid t i) ->
  binary_type t = false ->
  device_reply (envs k) ip port net mac (mkOid t i) 77 whole r -> device_reply (envs (S k)) ip port net mac (mkOid t i) 117 whole u ->
  exists tr p s, PointDetails k envs me d (mkPoint i t prio) = (tr, COk p) /\ pd_unit p = number_of u
  /\ UnitString p = ROk s /\ tells KUnit (number_of u mod 65536) s.
Proof.
  intros k envs me d ip port net mac t i prio r u Hop Hme Ho Ht HR HU.
  destruct (point_details_other k envs me d ip port net mac t i prio r u Hop Hme Ho ltac:(unfold binary_type in Ht; lia) HR HU) as [tr E].
  destruct (shows_tells KUnit (number_of u mod 65536) (Z.mod_pos_bound _ 65536 eq_refl)) as (s & E2 & T).
  do 3 eexists. split; [exact E|]. split; [reflexivity|]. split; [exact E2|exact T].
Qed.
Lemma unit_binary : forall k envs me d ip port net mac t i prio r, opened d ip port net mac -> own me -> valid_oid (mkOid t i) ->
  binary_type t = true -> device_reply (envs k) ip port net mac (mkOid t i) 77 whole r ->
  exists tr p, PointDetails k envs me d (mkPoint i t prio) = (tr, COk p) /\ pd_unit p = 0 /\ UnitString p = ROk [].
Proof.
  intros k envs me d ip port net mac t i prio r Hop Hme Ho Ht HR.
  destruct (point_details_bool k envs me d ip port net mac t i prio r Hop Hme Ho ltac:(unfold binary_type in Ht; lia) HR) as [tr E].
  do 2 eexists. split; [exact E|]. split; reflexivity.
Qed.
