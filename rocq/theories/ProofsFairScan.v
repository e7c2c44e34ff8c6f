(** * Discovery calls return in every fair execution that does not get stuck *)
Require Import List ZArith Bool Lia.
From Verif Require Import ModelClient ModelSystem ModelScan ModelWhole SpecSystem SpecUtsm SpecScan SpecWhole SpecFair.
From Verif Require ModelTsm SpecTsm ProofsTsm ProofsTsmProps ModelUtsm ProofsUtsm ProofsUtsmProps ProofsFate.
From Verif Require Import ProofsSystem ProofsSystemProps ProofsSystemLive ProofsScan ProofsWhole ProofsFair ProofsFairWhole.
Import ListNotations.
Import ModelTsm ModelUtsm ProofsTsm ProofsUtsm ProofsUtsmProps ProofsFate.
Open Scope Z_scope.

Definition scan_of (x : sphase) : option scan :=
  match x with YSub q _ _ | YTest q _ _ _ _ | YWait q _ _ _ _ => Some q | _ => None end.
Definition in_sub (x : sphase) : bool := match x with YSub _ _ _ => true | _ => false end.
(** the steps left, the rounds of the select counted once *)
Definition slv (t : sender) : nat := match t with TNot => 2 | TSent _ => 1 | TOffer _ _ => 0 end.
Definition pcl (p : upc) : nat := match p with SubNew _ _ => 7 | SubReg _ _ _ => 6 | SubTime _ _ | SubWait _ _ => 5 | SubRem _ _ => 4 | _ => 0 end.
Definition smeas (x : sphase) (p : upc) : nat :=
  match x with YSub _ t _ => slv t + pcl p | YTest _ _ _ t _ => slv t + 3 | YWait _ _ _ t _ => slv t + 2 | _ => 0 end.
Lemma smeas_pos : forall seen w i x p q, yinv seen w -> nth_error (y_ph w) i = Some x -> nth_error (u_thr (y_u w)) i = Some p -> scan_of x = Some q -> (0 < smeas x p)%nat.
Proof.
  intros seen w i x p q I N Np Q. pose proof (y_phs _ _ I i) as P. unfold phase_ok in P. rewrite N, Np in P.
  destruct x; try discriminate Q; cbn [smeas]; try lia. destruct P as [_ P]. destruct p; cbn in *; try (destruct P; fail); lia.
Qed.

(** ** Steps *)
Lemma yin_inv : forall bcast me w a w', yexec bcast me w (YIn a) = Some w' -> exists u, y_inside a = true /\ uexec (y_u w) a = Some u /\
  (u_log u = u_log (y_u w) -> w' = y_setu w u) /\ (forall e, u_log u = e :: u_log (y_u w) -> y_returned (y_setu w u) e = Some w').
Proof.
  intros bcast me w a w' H. unfold yexec in H. destruct (y_dead w); [discriminate|]. destruct (y_inside a) eqn:IN; [|discriminate].
  destruct (uexec (y_u w) a) as [u|]; [|discriminate]. exists u. split; [reflexivity|]. split; [reflexivity|]. split.
  - intros L. rewrite L, Nat.eqb_refl in H. injection H as <-. reflexivity.
  - intros e L. rewrite L in H. cbn [length] in H. destruct (Nat.eqb _ _) eqn:E; [apply Nat.eqb_eq in E; lia|]. exact H.
Qed.
Lemma yin_some : forall bcast me w a u, y_dead w = false -> y_inside a = true -> uexec (y_u w) a = Some u -> exists w', yexec bcast me w (YIn a) = Some w'.
Proof.
  intros bcast me w a u D IN X. unfold yexec. rewrite D, IN, X.
  destruct (inside_step _ _ _ IN X) as (i & p & p' & oe & N & N' & _ & L & PS). rewrite L. destruct oe as [e|]; cbn [log_with].
  - destruct (Nat.eqb _ _); [eauto|]. inversion PS; subst; cbn [y_returned]; eauto.
    + destruct (nth_error (y_ph (y_setu w u)) i) as [[| | | |[|? ps] b]|]; eauto. unfold y_publish. destruct ps as [|[k x] ps]; [eauto|]. cbn [y_setu y_u uexec]. rewrite N'. eauto.
    + destruct (nth_error (y_ph (y_setu w u)) i) as [[| | | |]|]; eauto.
  - rewrite Nat.eqb_refl. eauto.
Qed.
Definition round (i : nat) (a : yaction) (p p' : upc) : Prop :=
  (exists s st, p = SubTime s st /\ p' = SubWait s st /\ a = YIn (VStep i)) \/ (exists s st v, p = SubWait s st /\ p' = SubTime s (st ++ [v]) /\ a = YIn (VRecv i)).
Lemma y_own : forall bcast me seen w a w' i x p q, yinv seen w -> yexec bcast me w a = Some w' -> y_step a = true -> y_of i a = true ->
  nth_error (y_ph w) i = Some x -> nth_error (u_thr (y_u w)) i = Some p -> scan_of x = Some q ->
  (exists f, y_done w' = f :: y_done w /\ sd_thread f = i /\ sd_req f = q /\ in_sub x = false) \/
  (exists x' p', nth_error (y_ph w') i = Some x' /\ nth_error (u_thr (y_u w')) i = Some p' /\ scan_of x' = Some q /\ y_done w' = y_done w /\ (in_sub x' = true -> in_sub x = true) /\
     ((smeas x' p' < smeas x p)%nat \/ x' = x /\ round i a p p')).
Proof.
  intros bcast me seen w a w' i x p q I H S O N Np Q. pose proof (y_phs _ _ I i) as P. unfold phase_ok in P. rewrite N, Np in P.
  assert (UP : forall y, nth_error (upd (y_ph w) i y) i = Some y) by (intros y; apply (upd_same _ _ _ _ _ N)).
  assert (UT : forall y, nth_error (upd (u_thr (y_u w)) i y) i = Some y) by (intros y; apply (upd_same _ _ _ _ _ Np)).
  assert (D0 : y_dead w = false) by (apply (yexec_live _ _ _ _ _ H)).
  destruct a as [| | |j ok|j|j|j|a]; try discriminate S; cbn [y_of] in O; try (apply Nat.eqb_eq in O; subst j).
  - unfold yexec in H. rewrite D0, N in H. destruct x as [|q' [] ?|q' s st [] ?|q' s st [] ?|]; try discriminate H; injection H as <-; injection Q as ->;
      right; do 2 eexists; (split; [cbn; apply UP|]); (split; [exact Np|]); (split; [reflexivity|]); (split; [reflexivity|]); (split; [auto; discriminate|]); left; cbn [smeas slv]; lia.
  - unfold yexec in H. rewrite D0, N in H. destruct x as [|q' [] ?|q' s st [] ?|q' s st [] ?|]; try discriminate H; injection H as <-; injection Q as ->;
      right; do 2 eexists; (split; [cbn; apply UP|]); (split; [exact Np|]); (split; [reflexivity|]); (split; [reflexivity|]); (split; [auto; discriminate|]); left; cbn [smeas slv]; lia.
  - unfold yexec in H. rewrite D0, N in H. destruct x as [|q' t ?|q' s st t ?|q' s st t ?|]; try discriminate H. injection Q as ->. destruct (_ && _); injection H as <-.
    + left. eexists. split; [reflexivity|]. split; [reflexivity|]. split; reflexivity.
    + right. do 2 eexists. split; [cbn; apply UP|]. split; [exact Np|]. split; [reflexivity|]. split; [reflexivity|]. split; [auto; discriminate|]. left. cbn [smeas]. lia.
  - unfold yexec in H. rewrite D0, N in H. destruct x as [|q' t ?|q' s st t ?|q' s st [] ?|]; try discriminate H. injection Q as ->. injection H as <-.
    left. eexists. split; [reflexivity|]. split; [reflexivity|]. split; reflexivity.
  - destruct (yin_inv _ _ _ _ _ H) as (u & IN & X & R1 & R2).
    destruct x as [|q' t e0|q' s0 st0 t e0|q' s0 st0 t e0|]; try discriminate Q; injection Q as ->.
    2,3: destruct p; try (destruct P; fail); destruct a; try discriminate O; apply Nat.eqb_eq in O; subst; cbn [uexec] in X; rewrite Np in X; discriminate X.
    destruct P as [_ P].
    assert (SIL : forall p', u_thr u = upd (u_thr (y_u w)) i p' -> w' = y_setu w u -> ((pcl p' < pcl p)%nat \/ round i (YIn a) p p') ->
      exists x' p', nth_error (y_ph w') i = Some x' /\ nth_error (u_thr (y_u w')) i = Some p' /\ scan_of x' = Some q /\ y_done w' = y_done w /\ (in_sub x' = true -> true = true) /\
       ((smeas x' p' < smeas (YSub q t e0) p)%nat \/ x' = YSub q t e0 /\ round i (YIn a) p p')).
    { intros p' T -> M. exists (YSub q t e0), p'. split; [exact N|]. split; [cbn; rewrite T; apply UT|]. split; [reflexivity|]. split; [reflexivity|]. split; [auto|].
      destruct M as [M|M]; [left; cbn [smeas]; lia|right; auto]. }
    right. destruct a as [| |j|j|j]; try discriminate O; apply Nat.eqb_eq in O; subst j; cbn [uexec] in X; rewrite Np in X.
    + destruct p; try (destruct P; fail); cbn [ustep] in X; try discriminate X.
      * injection X as <-. eapply SIL; [reflexivity|apply R1; reflexivity|left; cbn; lia].
      * destruct (u_lock _); [discriminate|]. destruct (nth_error (u_objs (y_u w)) _); [|discriminate]. injection X as <-. specialize (R2 _ eq_refl). cbn [y_returned] in R2. injection R2 as <-.
        eapply SIL; [reflexivity|reflexivity|left; cbn; lia].
      * destruct (nth_error (u_objs (y_u w)) _) as [sx|]; [|discriminate]. destruct (sb_lock sx); [discriminate|]. injection X as <-. eapply SIL; [reflexivity|apply R1; reflexivity|].
        right. left. eauto.
      * destruct (u_lock _); [discriminate|]. injection X as <-. specialize (R2 _ eq_refl). cbn [y_returned y_setu y_ph] in R2. rewrite N in R2. injection R2 as <-.
        do 2 eexists. split; [cbn; apply UP|]. split; [cbn; apply UT|]. split; [reflexivity|]. split; [reflexivity|]. split; [auto; discriminate|]. left. cbn [smeas pcl]. lia.
    + destruct p; try discriminate X. destruct (nth_error (u_objs (y_u w)) _) as [sx|]; [|discriminate]. destruct (sb_q sx) as [|v qq]; [discriminate|]. injection X as <-.
      eapply SIL; [reflexivity|apply R1; reflexivity|]. right. right. eauto 6.
    + destruct p; try discriminate X. injection X as <-. eapply SIL; [reflexivity|apply R1; reflexivity|]. left. cbn. lia.
Qed.
Lemma y_enabled : forall bcast me seen w i x p q, yinv seen w -> y_dead w = false -> nth_error (y_ph w) i = Some x -> nth_error (u_thr (y_u w)) i = Some p -> scan_of x = Some q ->
  (in_sub x = true -> u_lock (y_u w) = None) -> exists a w', y_of i a = true /\ y_step a = true /\ yexec bcast me w a = Some w'.
Proof.
  intros bcast me seen w i x p q I D N Np Q L. pose proof (y_phs _ _ I i) as P. unfold phase_ok in P. rewrite N, Np in P.
  pose proof (ureach_inv _ (y_reach _ _ I)) as UI. assert (EI : Nat.eqb i i = true) by apply Nat.eqb_refl.
  assert (YI : forall a u, y_inside a = true -> y_of i (YIn a) = true -> uexec (y_u w) a = Some u -> exists a w', y_of i a = true /\ y_step a = true /\ yexec bcast me w a = Some w').
  { intros a u IN O X. destruct (yin_some bcast me w a u D IN X) as (w' & E). exists (YIn a), w'. auto. }
  destruct x as [|q' t e|q' s st t e|q' s st t e|]; try discriminate Q.
  - destruct P as [_ P]. specialize (L eq_refl). destruct p; try (destruct P; fail).
    + eapply (YI (VStep i)); [reflexivity|exact EI|]. cbn [uexec]. rewrite Np. reflexivity.
    + assert (R : (s < length (u_objs (y_u w)))%nat) by (apply (c_range _ UI i _ s Np); left; reflexivity).
      destruct (nth_error (u_objs (y_u w)) s) eqn:O; [|apply nth_error_None in O; lia].
      eapply (YI (VStep i)); [reflexivity|exact EI|]. cbn [uexec]. rewrite Np. cbn [ustep]. rewrite L, O. reflexivity.
    + assert (R : (s < length (u_objs (y_u w)))%nat) by (apply (c_range _ UI i _ s Np); left; reflexivity).
      destruct (nth_error (u_objs (y_u w)) s) as [sx|] eqn:O; [|apply nth_error_None in O; lia].
      eapply (YI (VStep i)); [reflexivity|exact EI|]. cbn [uexec]. rewrite Np. cbn [ustep]. rewrite O.
      destruct (sb_lock sx) as [k|] eqn:B; [|reflexivity]. destruct (sub_lock_holder _ _ _ _ UI O B) as [K _]. congruence.
    + eapply (YI (VTimeout i)); [reflexivity|exact EI|]. cbn [uexec]. rewrite Np. reflexivity.
    + eapply (YI (VStep i)); [reflexivity|exact EI|]. cbn [uexec]. rewrite Np. cbn [ustep]. rewrite L. reflexivity.
  - exists (YCheck i). unfold yexec. rewrite D, N. destruct (_ && _); eexists; (split; [exact EI|split; reflexivity]).
  - destruct t.
    + exists (YTx i true). unfold yexec. rewrite D, N. eexists; (split; [exact EI|split; reflexivity]).
    + exists (YOffer i). unfold yexec. rewrite D, N. eexists; (split; [exact EI|split; reflexivity]).
    + exists (YTake i). unfold yexec. rewrite D, N. eexists; (split; [exact EI|split; reflexivity]).
Qed.

(** ** The holder of the mutex of the manager *)
Definition hold_left (p : upc) : nat :=
  match p with
  | PubLoop _ _ l => 1 + 4 * length l | PubSub _ _ _ l => 4 + 4 * length l | PubSend _ _ _ l => 3 + 4 * length l | PubUnlock _ _ _ l => 2 + 4 * length l
  | _ => 0
  end.
(** it waits for room in a channel, or can go on *)
Lemma holder_goes : forall u k p, uinv u -> u_lock u = Some k -> nth_error (u_thr u) k = Some p ->
  (exists u', uexec u (VStep k) = Some u') \/ exists id v s rest x, p = PubSend id v s rest /\ nth_error (u_objs u) s = Some x /\ sb_q x <> [].
Proof.
  intros u k p UI L Np. pose proof (proj2 (a_lock _ UI k p Np) L) as PH. cbn [uexec]. rewrite Np.
  destruct p; try discriminate PH; cbn [ustep].
  - destruct rest as [|s rest]; [left; eauto|]. destruct (d_todo _ UI k _ _ _ _ Np eq_refl) as (pre & S).
    destruct (obj_of u s UI) as (x & O); [rewrite S; apply in_or_app; right; left; reflexivity|]. rewrite O. left. destruct (in_range x id); eauto.
  - destruct (d_todo _ UI k _ _ _ _ Np eq_refl) as (pre & S).
    destruct (obj_of u s UI) as (x & O); [rewrite S; apply in_or_app; right; left; reflexivity|]. rewrite O. left. destruct (sb_lock x) as [j|] eqn:B; [|eauto].
    destruct (sub_lock_holder _ _ _ _ UI O B) as (K & p & Nj & H). assert (j = k) by congruence. subst j. rewrite Np in Nj. injection Nj as <-. discriminate H.
  - destruct (obj_of u s UI (d_held _ UI k _ s Np eq_refl)) as (x & O). rewrite O. destruct (Nat.ltb _ _) eqn:LT; [left; eauto|]. right. do 5 eexists. split; [reflexivity|]. split; [exact O|].
    apply Nat.ltb_ge in LT. unfold cap_q in LT. destruct (sb_q x); [cbn in LT; lia|discriminate].
  - destruct (obj_of u s UI (d_held _ UI k _ s Np eq_refl)) as (x & O). rewrite O. left. eauto.
Qed.
(** whoever it waits for is at its select, or discovery is stuck *)
Lemma awaited : forall u k id v s rest x, uinv u -> (forall k j s, ~ doomed u k j s) -> nth_error (u_thr u) k = Some (PubSend id v s rest) ->
  nth_error (u_objs u) s = Some x -> sb_q x <> [] -> exists j store, nth_error (u_thr u) j = Some (SubWait s store).
Proof.
  intros u k id v s rest x UI ND Np O QN. pose proof (d_held _ UI k _ s Np eq_refl) as IS. apply (c_reg _ UI) in IS. destruct IS as (j & p & store & Nj & R).
  assert (RG : sb_lo x <= id <= sb_hi x) by (apply in_range_iff; exact (d_at _ UI k _ id s x Np eq_refl O)).
  destruct p; try discriminate R; injection R as -> ->; [|eauto|].
  - exfalso. apply (ND k j s). exists (PubSend id v s rest), id, (s :: rest), x, store. split; [exact Np|]. split; [reflexivity|]. split; [left; reflexivity|].
    split; [exact O|]. split; [exact RG|]. split; [exact QN|]. right. split; [exact Nj|]. eauto.
  - exfalso. apply (ND k j s). exists (PubSend id v s rest), id, (s :: rest), x, store. split; [exact Np|]. split; [reflexivity|]. split; [left; reflexivity|].
    split; [exact O|]. split; [exact RG|]. split; [exact QN|]. left. exact Nj.
Qed.
(** a step of the holder brings it on *)
Lemma holder_own : forall bcast me seen w a w' k p, yinv seen w -> yexec bcast me w a = Some w' -> y_step a = true -> y_of k a = true ->
  u_lock (y_u w) = Some k -> nth_error (u_thr (y_u w)) k = Some p ->
  u_lock (y_u w') = None \/ exists p', u_lock (y_u w') = Some k /\ nth_error (u_thr (y_u w')) k = Some p' /\ (hold_left p' < hold_left p)%nat.
Proof.
  intros bcast me seen w a w' k p I H S O L Np. pose proof (ureach_inv _ (y_reach _ _ I)) as UI. pose proof (proj2 (a_lock _ UI k p Np) L) as PH.
  assert (UT : forall y, nth_error (upd (u_thr (y_u w)) k y) k = Some y) by (intros y; apply (upd_same _ _ _ _ _ Np)).
  assert (HN : exists ps b, nth_error (y_ph w) k = Some (YHandle ps b)) by (apply (publisher_handles _ _ _ _ I Np); destruct p; discriminate).
  destruct HN as (ps & b & HN). assert (D0 : y_dead w = false) by (apply (yexec_live _ _ _ _ _ H)).
  destruct a as [| | |j ok|j|j|j|a]; try discriminate S; cbn [y_of] in O; try (apply Nat.eqb_eq in O; subst j; unfold yexec in H; rewrite D0, HN in H; discriminate H).
  destruct (yin_inv _ _ _ _ _ H) as (u & IN & X & R1 & R2).
  destruct a as [| |j|j|j]; try discriminate O; apply Nat.eqb_eq in O; subst j; cbn [uexec] in X; rewrite Np in X; destruct p; try discriminate PH; try discriminate X; cbn [ustep] in X.
  - destruct rest as [|s rest].
    + injection X as <-. specialize (R2 _ eq_refl). cbn [y_returned y_setu y_ph] in R2. rewrite HN in R2. left. destruct ps as [|p0 ps]; [injection R2 as <-; reflexivity|].
      unfold y_publish in R2. destruct ps as [|[kk xx] ps]; [injection R2 as <-; destruct b; reflexivity|]. destruct (uexec _ _) as [u2|] eqn:X2; [|discriminate]. injection R2 as <-. cbn [y_u].
      cbn [uexec y_u] in X2. destruct (nth_error _ k) as [[]|] in X2; try discriminate X2. injection X2 as <-. reflexivity.
    + destruct (nth_error (u_objs (y_u w)) _) as [x|]; [|discriminate]. right. destruct (in_range x id); injection X as <-; rewrite R1 by reflexivity; eexists; (split; [exact L|]); (split; [cbn; apply UT|]); cbn [hold_left length]; lia.
  - destruct (nth_error (u_objs (y_u w)) _) as [x|]; [|discriminate]. right. destruct (sb_lock x); [discriminate|]. injection X as <-; rewrite R1 by reflexivity; eexists; (split; [exact L|]); (split; [cbn; apply UT|]); cbn [hold_left length]; lia.
  - destruct (nth_error (u_objs (y_u w)) _) as [x|]; [|discriminate]. right. destruct (Nat.ltb _ _); [|discriminate]. injection X as <-; rewrite R1 by reflexivity; eexists; (split; [exact L|]); (split; [cbn; apply UT|]); cbn [hold_left length]; lia.
  - destruct (nth_error (u_objs (y_u w)) _) as [x|]; [|discriminate]. right. injection X as <-; rewrite R1 by reflexivity; eexists; (split; [exact L|]); (split; [cbn; apply UT|]); cbn [hold_left length]; lia.
Qed.
Lemma y_other_done : forall bcast me w a w' i, yexec bcast me w a = Some w' -> y_step a = true -> y_of i a = false ->
  y_done w' = y_done w \/ exists f, y_done w' = f :: y_done w /\ sd_thread f <> i.
Proof.
  intros bcast me w a w' i H S O. destruct a as [| | |j ok|j|j|j|a]; try discriminate S; cbn [y_of] in O; try (apply Nat.eqb_neq in O).
  1-4: unfold yexec in H; destruct (y_dead w); [discriminate|].
  - destruct (nth_error (y_ph w) j) as [[|q [] ?|q s st [] ?|q s st [] ?|]|]; try discriminate H; injection H as <-; auto.
  - destruct (nth_error (y_ph w) j) as [[|q [] ?|q s st [] ?|q s st [] ?|]|]; try discriminate H; injection H as <-; auto.
  - destruct (nth_error (y_ph w) j) as [[|q t ?|q s st t ?|q s st t ?|]|]; try discriminate H. destruct (_ && _); injection H as <-; [|auto]. right. eexists. split; [reflexivity|exact O].
  - destruct (nth_error (y_ph w) j) as [[|q t ?|q s st t ?|q s st [] ?|]|]; try discriminate H. injection H as <-. right. eexists. split; [reflexivity|exact O].
  - left. unfold yexec in H. destruct (y_dead w); [discriminate|]. destruct (y_inside a); [|discriminate]. destruct (uexec (y_u w) a) as [u|]; [|discriminate].
    destruct (Nat.eqb _ _); [injection H as <-; reflexivity|]. destruct (u_log u) as [|e t]; [injection H as <-; reflexivity|].
    assert (PB : forall v k ps b v', y_publish v k ps b = Some v' -> y_done v' = y_done v).
    { intros v k ps b v' P. unfold y_publish in P. destruct ps as [|[? ?] ps]; [injection P as <-; destruct b; reflexivity|]. destruct (uexec _ _); [|discriminate]. injection P as <-. reflexivity. }
    destruct e; cbn [y_returned] in H; try (injection H as <-; reflexivity).
    + destruct (nth_error _ _) as [[| | | |[|? ps] b]|] in H; try (injection H as <-; reflexivity). rewrite (PB _ _ _ _ _ H). reflexivity.
    + destruct (nth_error _ _) as [[| | | |]|] in H; injection H as <-; reflexivity.
Qed.

Lemma zy_own : forall bcast me z act z' i x, zreach bcast me z -> zexec bcast me z act = Some z' -> nth_error (y_ph (z_y z)) i = Some x -> x <> YFree -> z_of i act = true ->
  exists a, act = ZY a /\ y_step a = true /\ y_of i a = true /\ yexec bcast me (z_y z) a = Some (z_y z').
Proof.
  intros bcast me z act z' i x RE E N NF O. pose proof (zexec_live _ _ _ _ _ E) as LV. pose proof (zreach_up _ _ _ RE LV) as U. pose proof (zreach_apart _ _ _ RE i) as AP.
  unfold zexec in E. rewrite LV in E. unfold z_do_w, z_do_y in E.
  destruct act as [|j rq'|j q|j src b|j|a|a]; try discriminate O; cbn [z_of] in O.
  - apply Nat.eqb_eq in O. subst j. rewrite N in E. destruct x; try discriminate E. destruct (NF eq_refl).
  - exfalso. destruct (w_step a) eqn:S; [|discriminate]. destruct (wexec me (z_w z) a) as [w|] eqn:EW; [|discriminate].
    assert (LL : exists x0, nth_error (w_ph (z_w z)) i = Some x0).
    { destruct (up_inv _ _ U) as ((l & IA) & _). assert (LT : nth_error (sy_thr (w_tsm (z_w z))) i <> None \/ exists x0, nth_error (w_ph (z_w z)) i = Some x0).
      { destruct a as [| | |j ok|j|b]; try discriminate S; cbn [w_of] in O.
        - apply Nat.eqb_eq in O. subst j. unfold wexec in EW. destruct (w_dead _); [discriminate|]. destruct (nth_error (w_ph (z_w z)) i); [eauto|discriminate].
        - apply Nat.eqb_eq in O. subst j. unfold wexec in EW. destruct (w_dead _); [discriminate|]. destruct (nth_error (w_ph (z_w z)) i); [eauto|discriminate].
        - left. destruct (wtsm_inv _ _ _ _ EW) as (s & _ & _ & X & _).
          intros K. destruct b; cbn [w_of] in O; try discriminate O;
            try (apply Nat.eqb_eq in O; rewrite <- O in K; unfold exec in X; destruct (sy_crash _); [discriminate X|]; rewrite K in X; discriminate X).
          destruct (deliver_inv _ _ _ _ X) as (sid & v & c & sg & rid & rg & A & B & _). apply orb_true_iff in O. destruct O as [O|O]; apply Nat.eqb_eq in O; subst; congruence. }
      destruct LT as [LT|LT]; [|exact LT]. apply nth_error_Some in LT. rewrite <- (a_len _ _ _ IA) in LT. destruct (nth_error (w_ph (z_w z)) i) eqn:K; [eauto|apply nth_error_None in K; lia]. }
    destruct LL as (x0 & N0). destruct x0; try (rewrite (AP _ N0) in N by discriminate; injection N as <-; destruct (NF eq_refl); fail).
    destruct (free_step _ _ _ _ _ U EW S N0) as [K _]. congruence.
  - destruct (y_step a) eqn:S; [|discriminate]. destruct (yexec bcast me (z_y z) a) as [y|] eqn:EY; [|discriminate]. injection E as <-. exists a. auto.
Qed.
Lemma zy_stay : forall bcast me z act z' i x, zreach bcast me z -> zexec bcast me z act = Some z' -> nth_error (y_ph (z_y z)) i = Some x -> x <> YFree -> z_of i act = false ->
  nth_error (y_ph (z_y z')) i = Some x /\ nth_error (u_thr (y_u (z_y z'))) i = nth_error (u_thr (y_u (z_y z))) i /\
  (y_done (z_y z') = y_done (z_y z) \/ exists f, y_done (z_y z') = f :: y_done (z_y z) /\ sd_thread f <> i).
Proof.
  intros bcast me z act z' i x RE E N NF O. pose proof (zexec_live _ _ _ _ _ E) as LV. destruct (zreach_y _ _ _ RE) as (seen & I).
  assert (TL : nth_error (u_thr (y_u (z_y z))) i <> None).
  { apply nth_error_Some. rewrite <- (same_length _ _ I). apply nth_error_Some. congruence. }
  unfold zexec in E. rewrite LV in E. unfold z_do_w, z_do_y in E.
  destruct act as [|j rq'|j q|j src b|j|a|a]; cbn [z_of] in O.
  - destruct (wexec _ _ _) as [w|]; [|discriminate]. destruct (yexec bcast me (z_y z) YSpawn) as [y|] eqn:EY; [|discriminate]. injection E as <-. cbn [z_y].
    unfold yexec in EY. destruct (y_dead _); [discriminate|]. cbn [uexec] in EY. injection EY as <-. cbn. rewrite !nth_error_app1; auto; apply nth_error_Some; congruence.
  - destruct (z_free _ _); [|discriminate]. destruct (wexec _ _ _) as [w|]; [|discriminate]. injection E as <-. cbn [z_y]. auto.
  - destruct (z_free _ _) eqn:FR; [|discriminate]. destruct (free_parts _ _ FR) as (_ & F2 & _). assert (D : j <> i) by (intros ->; rewrite F2 in N; congruence).
    destruct (yexec bcast me (z_y z) (YCall j q)) as [y|] eqn:EY; [|discriminate]. injection E as <-. cbn [z_y]. unfold yexec in EY. destruct (y_dead _); [discriminate|]. rewrite F2 in EY.
    destruct (scan_frame _ _ _); [|injection EY as <-; auto]. destruct (uexec _ _) as [u|] eqn:X; [|discriminate]. injection EY as <-. uexec_cases X. cbn. rewrite !upd_other by exact D. auto.
  - destruct (z_free _ _) eqn:FR; [|discriminate]. destruct (free_parts _ _ FR) as (_ & F2 & _). assert (D : i <> j) by (intros ->; rewrite F2 in N; congruence).
    destruct (yexec bcast me (z_y z) (YArrive j src b false)) as [y|] eqn:EY; [|discriminate]. injection E as <-. cbn [z_y]. unfold yexec in EY. destruct (y_dead _); [discriminate|]. rewrite F2 in EY.
    destruct (handleMsg _ _ _) as [eff pn]. destruct (publish_other _ _ _ _ _ i EY D) as [P1 P2]. rewrite P1, P2. split; [exact N|]. split; [reflexivity|]. left.
    unfold y_publish in EY. destruct (flat_map effect_pub eff) as [|[? ?] ps]; [injection EY as <-; destruct pn; reflexivity|]. destruct (uexec _ _); [|discriminate]. injection EY as <-. reflexivity.
  - destruct (nth_error (y_ph (z_y z)) j) as [[]|]; try discriminate E. destruct (nth_error (z_rest z) j) as [[[src b]|]|]; try discriminate E.
    destruct (wexec _ _ _) as [w|]; [|discriminate]. injection E as <-. cbn [z_y]. auto.
  - destruct (w_step a) eqn:S; [|discriminate]. destruct (wexec _ _ _) as [w|]; [|discriminate]. injection E as <-. cbn [z_y]. auto.
  - destruct (y_step a) eqn:S; [|discriminate]. destruct (yexec bcast me (z_y z) a) as [y|] eqn:EY; [|discriminate]. injection E as <-. cbn [z_y].
    destruct (y_other _ _ _ _ _ i EY S O) as [P1 P2]. rewrite P1, P2. split; [exact N|]. split; [reflexivity|]. exact (y_other_done _ _ _ _ _ i EY S O).
Qed.

Section Execution.
Context (bcast : address) (me : option address) (zs : nat -> whole) (az : nat -> zaction) (EX : execution bcast me zs az).
Notation Y n := (z_y (zs n)).
Lemma ey_u : forall n, uinv (y_u (Y n)).
Proof. intros n. destruct (ex_y _ _ _ _ EX n) as (seen & I). exact (ureach_inv _ (y_reach _ _ I)). Qed.
Lemma ey_live : forall n, y_dead (Y n) = false.
Proof. intros n. apply (z_live _ (ex_live _ _ _ _ EX n)). Qed.
Lemma ey_own : forall n i x, nth_error (y_ph (Y n)) i = Some x -> x <> YFree -> z_of i (az n) = true ->
  exists a, az n = ZY a /\ y_step a = true /\ y_of i a = true /\ yexec bcast me (Y n) a = Some (Y (S n)).
Proof. intros n i x. destruct EX as [_ E]. exact (zy_own _ _ _ _ _ i x (ex_run _ _ _ _ EX n) (E n)). Qed.
Lemma ey_stay : forall n i x, nth_error (y_ph (Y n)) i = Some x -> x <> YFree -> z_of i (az n) = false ->
  nth_error (y_ph (Y (S n))) i = Some x /\ nth_error (u_thr (y_u (Y (S n)))) i = nth_error (u_thr (y_u (Y n))) i /\
  (y_done (Y (S n)) = y_done (Y n) \/ exists f, y_done (Y (S n)) = f :: y_done (Y n) /\ sd_thread f <> i).
Proof. intros n i x. destruct EX as [_ E]. exact (zy_stay _ _ _ _ _ i x (ex_run _ _ _ _ EX n) (E n)). Qed.
Definition others' (i : nat) (d : list sdone) : Prop := forall g, In g d -> sd_thread g <> i.
Lemma ey_stays : forall i x n m, (n <= m)%nat -> nth_error (y_ph (Y n)) i = Some x -> x <> YFree ->
  (forall k, (n <= k < m)%nat -> z_of i (az k) = false) ->
  nth_error (y_ph (Y m)) i = Some x /\ nth_error (u_thr (y_u (Y m))) i = nth_error (u_thr (y_u (Y n))) i /\
  exists d, y_done (Y m) = d ++ y_done (Y n) /\ others' i d.
Proof.
  intros i x n m H N NF. induction H as [|m H IH]; intros K.
  - split; [exact N|]. split; [reflexivity|]. exists []. split; [reflexivity|intros g []].
  - destruct IH as (A & B & d & D & OD); [intros k Hk; apply K; lia|]. destruct (ey_stay m i x A NF) as (A' & B' & D'); [apply K; lia|].
    split; [exact A'|]. split; [congruence|]. destruct D' as [D'|(f & D' & F)]; [exists d; split; [congruence|exact OD]|].
    exists (f :: d). split; [rewrite D', D; reflexivity|]. intros g [<-|G]; auto.
Qed.
Lemma ey_can : forall n i a w', y_of i a = true -> y_step a = true -> yexec bcast me (Y n) a = Some w' -> can_move bcast me (zs n) i.
Proof.
  intros n i a w' O S E. exists (ZY a), (mkZ (z_w (zs n)) w' (z_rest (zs n))). split; [exact O|]. unfold zexec, z_do_y. rewrite (ex_live _ _ _ _ EX n), S, E. reflexivity.
Qed.
Lemma ey_can_u : forall n i a u, y_of i (YIn a) = true -> y_inside a = true -> uexec (y_u (Y n)) a = Some u -> can_move bcast me (zs n) i.
Proof. intros n i a u O IN X. destruct (yin_some bcast me (Y n) a u (ey_live n) IN X) as (w' & E). exact (ey_can n i (YIn a) w' O eq_refl E). Qed.

Context (FAIR : fair bcast me zs az).
Lemma moves : forall i n, (forall m, (n <= m)%nat -> (forall k, (n <= k)%nat -> z_of i (az k) = false) -> exists m2, (m <= m2)%nat /\ can_move bcast me (zs m2) i) ->
  exists k, (n <= k)%nat /\ z_of i (az k) = true /\ forall k', (n <= k' < k)%nat -> z_of i (az k') = false.
Proof.
  intros i n HC. destruct (FAIR i n) as (m & H & [O|B]).
  { destruct (first_own az i n m H O) as (k & K1 & K2 & K3). exists k. split; [lia|]. auto. }
  assert (NO : forall k, (m <= k)%nat -> z_of i (az k) = false).
  { intros k Hk. destruct (z_of i (az k)) eqn:O; [|reflexivity]. exfalso. apply (B k Hk). exists (az k), (zs (S k)). split; [exact O|apply EX]. }
  assert (G : (exists k, (n <= k < m)%nat /\ z_of i (az k) = true) \/ forall k, (n <= k < m)%nat -> z_of i (az k) = false).
  { clear -H. induction H as [|m H IH]; [right; lia|]. destruct IH as [(k & K1 & K2)|IH]; [left; exists k; split; [lia|exact K2]|].
    destruct (z_of i (az m)) eqn:Z; [left; exists m; split; [lia|exact Z]|]. right. intros k Hk. destruct (Nat.eq_dec k m) as [->|D]; [exact Z|]. apply IH. lia. }
  destruct G as [(k & K1 & K2)|G]; [destruct (first_own az i n k (proj1 K1) K2) as (k0 & J1 & J2 & J3); exists k0; split; [lia|auto]|].
  exfalso. destruct (HC m H) as (m2 & M1 & M2); [|exact (B m2 M1 M2)]. intros k Hk. destruct (Nat.lt_ge_cases k m); [apply G; lia|apply NO; lia].
Qed.

Definition free_from (n : nat) : Prop := forall m, (n <= m)%nat -> ~ SpecScan.stuck (Y m).
Lemma ey_free : forall n m, free_from n -> (n <= m)%nat -> forall k j s, ~ doomed (y_u (Y m)) k j s.
Proof. intros n m FREE H k j s D. apply (FREE m H). exists k, j, s. exact D. Qed.
Lemma holder_phase : forall n k, u_lock (y_u (Y n)) = Some k -> exists p ps b, nth_error (u_thr (y_u (Y n))) k = Some p /\ pub_holds p = true /\ nth_error (y_ph (Y n)) k = Some (YHandle ps b).
Proof.
  intros n k L. destruct (a_held _ (ey_u n) k L) as (p & Np). pose proof (proj2 (a_lock _ (ey_u n) k p Np) L) as PH. destruct (ex_y _ _ _ _ EX n) as (seen & I).
  destruct (publisher_handles _ _ _ _ I Np) as (ps & b & HN); [destruct p; discriminate|]. exists p, ps, b. auto.
Qed.
(** the subscriber at its select empties its channel *)
Lemma drained : forall n0, free_from n0 -> forall T m k j id v s rest store q t e, (n0 <= m)%nat -> (slv t <= T)%nat ->
  (forall m', (m <= m')%nat -> nth_error (u_thr (y_u (Y m'))) k = Some (PubSend id v s rest)) ->
  nth_error (y_ph (Y m)) j = Some (YSub q t e) -> nth_error (u_thr (y_u (Y m))) j = Some (SubWait s store) ->
  exists m2 x, (m <= m2)%nat /\ nth_error (u_objs (y_u (Y m2))) s = Some x /\ sb_q x = [].
Proof.
  intros n0 FREE. induction T as [T IH] using lt_wf_ind. intros m k j id v s rest store q t e M0 LT KP N Np.
  destruct (moves j m) as (k0 & H0 & O0 & B0).
  { intros m1 H1 NO. exists m1. split; [lia|]. destruct (ey_stays j _ m m1 H1 N) as (_ & T1 & _); [discriminate|intros; apply NO; lia|]. rewrite Np in T1.
    eapply (ey_can_u m1 j (VTimeout j)); [apply Nat.eqb_refl|reflexivity|]. cbn [uexec]. rewrite T1. reflexivity. }
  destruct (ey_stays j _ m k0 H0 N) as (N0 & T0 & _); [discriminate|exact B0|]. rewrite Np in T0.
  destruct (obj_of _ s (ey_u k0) (d_held _ (ey_u k0) k _ s (KP k0 H0) eq_refl)) as (x & OX).
  destruct (sb_q x) as [|v0 q0] eqn:QX; [exists k0, x; auto|].
  destruct (ey_own k0 j _ N0) as (a & _ & ST & YO & E); [discriminate|exact O0|].
  assert (SEND : forall t' e', (slv t' < slv t)%nat -> y_setph (Y k0) j (YSub q t' e') = Y (S k0) ->
    exists m2 x, (m <= m2)%nat /\ nth_error (u_objs (y_u (Y m2))) s = Some x /\ sb_q x = []).
  { intros t' e' LS ES. destruct (IH (slv t') ltac:(lia) (S k0) k j id v s rest store q t' e' ltac:(lia) (le_n _)) as (m2 & x2 & M1 & M2).
    - intros m' Hm. apply KP. lia.
    - rewrite <- ES. cbn. apply (upd_same _ _ _ _ _ N0).
    - rewrite <- ES. exact T0.
    - exists m2, x2. split; [lia|exact M2]. }
  destruct a as [| | |i ok|i|i|i|a]; try discriminate ST; cbn [y_of] in YO; try (apply Nat.eqb_eq in YO; subst i);
    try (unfold yexec in E; rewrite (ey_live k0), N0 in E; discriminate E);
    try (unfold yexec in E; rewrite (ey_live k0), N0 in E; destruct t; try discriminate E; injection E as E; eapply SEND; [|exact E]; cbn; lia).
  destruct (yin_inv _ _ _ _ _ E) as (u & IN & X & R1 & _).
  destruct a as [| |i|i|i]; try discriminate YO; apply Nat.eqb_eq in YO; subst i; cbn [uexec] in X; rewrite T0 in X; try discriminate X.
  - rewrite OX, QX in X. injection X as <-. specialize (R1 eq_refl). exists (S k0). eexists. split; [lia|]. rewrite R1. cbn. split; [apply (upd_same _ _ _ _ _ OX)|].
    pose proof (f_cap _ (ey_u k0) _ _ OX) as CP. rewrite QX in CP. unfold cap_q in CP. cbn in CP |- *. destruct q0; [reflexivity|cbn in CP; lia].
  - injection X as <-. specialize (R1 eq_refl). exfalso. apply (ey_free n0 (S k0) FREE ltac:(lia) k j s).
    exists (PubSend id v s rest), id, (s :: rest), x, store. split; [apply KP; lia|]. split; [reflexivity|]. split; [left; reflexivity|].
    rewrite R1. cbn. split; [exact OX|]. split; [apply in_range_iff; exact (d_at _ (ey_u k0) k _ id s x (KP k0 H0) eq_refl OX)|]. split; [rewrite QX; discriminate|].
    left. apply (upd_same _ _ _ _ _ T0).
Qed.
(** the mutex of the manager is given back *)
Lemma y_released : forall n0, free_from n0 -> forall N n k p, (n0 <= n)%nat -> u_lock (y_u (Y n)) = Some k -> nth_error (u_thr (y_u (Y n))) k = Some p -> (hold_left p <= N)%nat ->
  exists m, (n <= m)%nat /\ u_lock (y_u (Y m)) = None.
Proof.
  intros n0 FREE. induction N as [N IH] using lt_wf_ind. intros n k p M0 L Np HL. destruct (holder_phase n k L) as (p0 & ps & b & Np0 & PH & N0). rewrite Np in Np0. injection Np0 as <-.
  assert (KEEP : forall m, (n <= m)%nat -> (forall k', (n <= k' < m)%nat -> z_of k (az k') = false) ->
    nth_error (u_thr (y_u (Y m))) k = Some p /\ u_lock (y_u (Y m)) = Some k).
  { intros m H B. destruct (ey_stays k _ n m H N0) as (_ & T1 & _); [discriminate|exact B|]. rewrite Np in T1. split; [exact T1|]. apply (a_lock _ (ey_u m) k p T1). exact PH. }
  destruct (moves k n) as (k0 & H0 & O0 & B0).
  { intros m H NO. destruct (KEEP m H) as [T1 L1]; [intros; apply NO; lia|].
    destruct (holder_goes _ k p (ey_u m) L1 T1) as [(u' & X)|(id & v & s & rest & x & -> & OX & QX)].
    { exists m. split; [lia|]. apply (ey_can_u m k (VStep k) u'); [apply Nat.eqb_refl|reflexivity|exact X]. }
    destruct (awaited _ k id v s rest x (ey_u m) (ey_free n0 m FREE ltac:(lia)) T1 OX QX) as (j & store & Nj).
    assert (PJ : exists q t e, nth_error (y_ph (Y m)) j = Some (YSub q t e)).
    { destruct (ex_y _ _ _ _ EX m) as (seen & I). pose proof (y_phs _ _ I j) as P. unfold phase_ok in P. rewrite Nj in P.
      destruct (nth_error (y_ph (Y m)) j) as [[|? ? ?|? ? ? ? ?|? ? ? ? ?|ps1 b1]|]; try (destruct P; fail); eauto.
      destruct ps1 as [|[k0 x0] l0]; [destruct P|]. destruct P as (v0 & P & _). discriminate P. }
    destruct PJ as (q & t & e & Pj).
    destruct (drained n0 FREE (slv t) m k j id v s rest store q t e ltac:(lia) (le_n _)) as (m2 & x2 & M1 & OX2 & Q2); [|exact Pj|exact Nj|].
    { intros m' Hm. apply KEEP; [lia|intros; apply NO; lia]. }
    exists m2. split; [exact M1|]. destruct (KEEP m2 ltac:(lia)) as [T2 L2]; [intros; apply NO; lia|].
    destruct (holder_goes _ k _ (ey_u m2) L2 T2) as [(u' & X)|(id' & v' & s' & rest' & x' & E' & OX' & QX')].
    { apply (ey_can_u m2 k (VStep k) u'); [apply Nat.eqb_refl|reflexivity|exact X]. }
    injection E' as <- <- <- <-. rewrite OX2 in OX'. injection OX' as <-. contradiction. }
  destruct (KEEP k0 H0 B0) as [T1 L1]. destruct (ey_stays k _ n k0 H0 N0) as (N1 & _); [discriminate|exact B0|].
  destruct (ey_own k0 k _ N1) as (a & _ & ST & YO & E); [discriminate|exact O0|]. destruct (ex_y _ _ _ _ EX k0) as (seen & I).
  destruct (holder_own _ _ _ _ _ _ _ _ I E ST YO L1 T1) as [F|(p' & L2 & T2 & LT)]; [exists (S k0); split; [lia|exact F]|].
  destruct (IH (hold_left p') ltac:(lia) (S k0) k p' ltac:(lia) L2 T2 (le_n _)) as (m & M1 & M2). exists m. split; [lia|exact M2].
Qed.
Lemma scan_busy : forall x q, scan_of x = Some q -> x <> YFree.
Proof. intros x q H ->. discriminate H. Qed.

(** ** One call *)
Context (i : nat).
(** in Subscribe all along *)
Definition inside_since (x : sphase) (n m : nat) : Prop := in_sub x = true -> forall k, (n < k <= m)%nat -> scanning (Y k) i.
Lemma in_sub_scanning : forall x n, in_sub x = true -> nth_error (y_ph (Y n)) i = Some x -> scanning (Y n) i.
Proof. intros x n B N. destruct x; try discriminate B. unfold scanning. eauto. Qed.
Definition finds (q : scan) (n m : nat) : Prop :=
  exists f d, y_done (Y m) = f :: d ++ y_done (Y n) /\ others' i d /\ sd_thread f = i /\ sd_req f = q.
(** in progress *)
Definition goes (x : sphase) (p : upc) (n m : nat) : Prop :=
  exists d, nth_error (y_ph (Y m)) i = Some x /\ nth_error (u_thr (y_u (Y m))) i = Some p /\ y_done (Y m) = d ++ y_done (Y n) /\ others' i d /\ inside_since x n m.
Definition lower (q : scan) (v n m : nat) : Prop := exists x p, goes x p n m /\ scan_of x = Some q /\ (smeas x p < v)%nat.
Definition zone (p : upc) : Prop := match p with SubTime _ _ | SubWait _ _ => True | _ => False end.
Lemma goes_trans : forall x1 p1 x2 p2 n m1 m2, (in_sub x2 = true -> in_sub x1 = true) -> goes x1 p1 n m1 -> goes x2 p2 m1 m2 -> goes x2 p2 n m2.
Proof.
  intros x1 p1 x2 p2 n m1 m2 IM (d1 & A1 & A2 & A3 & A4 & A5) (d2 & B1 & B2 & B3 & B4 & B5). exists (d2 ++ d1). split; [exact B1|]. split; [exact B2|].
  split; [rewrite B3, A3, app_assoc; reflexivity|]. split; [intros g G; apply in_app_or in G; destruct G; auto|].
  intros SB k Hk. destruct (Nat.le_gt_cases k m1); [apply A5; [auto|lia]|apply B5; [exact SB|lia]].
Qed.
Lemma finds_trans : forall q x p n m1 m2, goes x p n m1 -> finds q m1 m2 -> finds q n m2.
Proof.
  intros q x p n m1 m2 (d1 & A1 & A2 & A3 & A4 & A5) (f & d2 & F & OD & FT & FR). exists f, (d2 ++ d1). split; [rewrite F, A3, app_assoc; reflexivity|].
  split; [|auto]. intros g G. apply in_app_or in G. destruct G; auto.
Qed.
Lemma rests : forall x p q n m, (n <= m)%nat -> nth_error (y_ph (Y n)) i = Some x -> nth_error (u_thr (y_u (Y n))) i = Some p -> scan_of x = Some q ->
  (forall k', (n <= k' < m)%nat -> z_of i (az k') = false) -> goes x p n m.
Proof.
  intros x p q n m H N Np Q B. destruct (ey_stays i x n m H N (scan_busy _ _ Q) B) as (N1 & T1 & d & D & OD). rewrite Np in T1. exists d. split; [exact N1|]. split; [exact T1|]. split; [exact D|]. split; [exact OD|].
  intros SB k Hk. destruct (ey_stays i x n k ltac:(lia) N (scan_busy _ _ Q)) as (N2 & _); [intros; apply B; lia|]. exact (in_sub_scanning _ _ SB N2).
Qed.
(** the step after a stretch in which the goroutine rests *)
Lemma stretch : forall n k x p q, (n <= k)%nat -> nth_error (y_ph (Y n)) i = Some x -> nth_error (u_thr (y_u (Y n))) i = Some p -> scan_of x = Some q ->
  z_of i (az k) = true -> (forall k', (n <= k' < k)%nat -> z_of i (az k') = false) ->
  finds q n (S k) /\ in_sub x = false \/ exists x' p', goes x' p' n (S k) /\ scan_of x' = Some q /\ (in_sub x' = true -> in_sub x = true) /\
   ((smeas x' p' < smeas x p)%nat \/ x' = x /\ exists a, az k = ZY a /\ round i a p p').
Proof.
  intros n k x p q H N Np Q O B. pose proof (rests x p q n k H N Np Q B) as G. destruct G as (d & N1 & T1 & D & OD & IS).
  destruct (ey_own k i x N1 (scan_busy _ _ Q) O) as (a & AZ & ST & YO & E). destruct (ex_y _ _ _ _ EX k) as (seen & I).
  destruct (y_own _ _ _ _ _ _ _ _ _ _ I E ST YO N1 T1 Q) as [(f & F & FT & FR & NS)|(x' & p' & N2 & T2 & Q2 & D2 & IM & R)].
  - left. split; [|exact NS]. exists f, d. rewrite F, D. auto.
  - right. exists x', p'. split.
    + exists d. split; [exact N2|]. split; [exact T2|]. split; [rewrite D2; exact D|]. split; [exact OD|]. intros SB k' Hk'.
      destruct (Nat.eq_dec k' (S k)) as [->|]; [exact (in_sub_scanning _ _ SB N2)|]. apply IS; [auto|lia].
    + split; [exact Q2|]. split; [exact IM|]. destruct R as [LT|[-> R]]; [auto|]. right. eauto.
Qed.
Lemma zone_round : forall a p p', round i a p p' -> zone p /\ zone p' /\ pcl p' = pcl p.
Proof. intros a p p' [(s & st & -> & -> & _)|(s & st & v & -> & -> & _)]; repeat split. Qed.
(** within the rounds of its select *)
Lemma zone_run : forall n m x p q, (n <= m)%nat -> nth_error (y_ph (Y n)) i = Some x -> nth_error (u_thr (y_u (Y n))) i = Some p -> scan_of x = Some q -> zone p ->
  (exists m', (n < m')%nat /\ (finds q n m' \/ exists x' p', goes x' p' n m' /\ scan_of x' = Some q /\ (in_sub x' = true -> in_sub x = true) /\ (smeas x' p' < smeas x p)%nat)) \/
  exists p', goes x p' n m /\ zone p' /\ smeas x p' = smeas x p.
Proof.
  intros n m x p q H N Np Q Z. induction H as [|m H IH].
  { right. exists p. split; [|auto]. apply (rests x p q); auto. intros; lia. }
  destruct IH as [IH|(p1 & G1 & Z1 & S1)]; [left; exact IH|]. pose proof G1 as (d & N1 & T1 & _).
  destruct (z_of i (az m)) eqn:O.
  - destruct (stretch m m x p1 q (le_n _) N1 T1 Q O) as [[F _]|(x2 & p2 & G2 & Q2 & IM & [LT|(-> & a & AZ & R)])]; [intros; lia| | |].
    + left. exists (S m). split; [lia|]. left. exact (finds_trans _ _ _ _ _ _ G1 F).
    + left. exists (S m). split; [lia|]. right. exists x2, p2. split; [exact (goes_trans _ _ _ _ _ _ _ IM G1 G2)|]. split; [exact Q2|]. split; [exact IM|lia].
    + right. destruct (zone_round _ _ _ R) as (_ & Z2 & P2). exists p2. split; [exact (goes_trans _ _ _ _ _ _ _ IM G1 G2)|]. split; [exact Z2|]. rewrite <- S1. destruct x; cbn [smeas]; lia.
  - right. exists p1. split; [|auto]. apply (goes_trans x p1 x p1 n m (S m)); [auto|exact G1|]. apply (rests x p1 q); auto. intros k Hk. replace k with m by lia. exact O.
Qed.
Context (n0 : nat) (FREE : forall m, (n0 < m)%nat -> (forall k, (n0 < k <= m)%nat -> scanning (Y k) i) -> ~ SpecScan.stuck (Y m)).
Context (TIMERS : deadlines bcast me zs az).
(** the call takes a step again *)
Lemma smoves : forall n x p q, (n0 < n)%nat -> inside_since x n0 n -> nth_error (y_ph (Y n)) i = Some x -> nth_error (u_thr (y_u (Y n))) i = Some p -> scan_of x = Some q ->
  exists k, (n <= k)%nat /\ z_of i (az k) = true /\ forall k', (n <= k' < k)%nat -> z_of i (az k') = false.
Proof.
  intros n x p q G0 IS N Np Q. apply moves. intros m H NO.
  assert (LK : exists m2, (m <= m2)%nat /\ (in_sub x = true -> u_lock (y_u (Y m2)) = None)).
  { destruct (in_sub x) eqn:SB; [|exists m; split; [lia|discriminate]].
    assert (FR : free_from n).
    { intros k Hk. apply FREE; [lia|]. intros k' Hk'. destruct (Nat.le_gt_cases k' n); [apply IS; [exact SB|lia]|].
      destruct (ey_stays i x n k' ltac:(lia) N) as (N2 & _); [exact (scan_busy _ _ Q)|intros; apply NO; lia|]. exact (in_sub_scanning _ _ SB N2). }
    destruct (u_lock (y_u (Y m))) as [k|] eqn:L; [|eauto]. destruct (holder_phase m k L) as (p0 & _ & _ & Np0 & _ & _).
    destruct (y_released n FR _ m k p0 H L Np0 (le_n _)) as (m2 & A & B). eauto. }
  destruct LK as (m2 & H2 & L). exists m2. split; [exact H2|].
  destruct (ey_stays i x n m2 ltac:(lia) N) as (N2 & T2 & _); [exact (scan_busy _ _ Q)|intros; apply NO; lia|]. rewrite Np in T2.
  destruct (ex_y _ _ _ _ EX m2) as (seen & I). destruct (y_enabled bcast me seen _ i x p q I (ey_live m2) N2 T2 Q L) as (a & w' & A & B & C). exact (ey_can m2 i a w' A B C).
Qed.
Lemma drop : forall n x p q, (n0 < n)%nat -> inside_since x n0 n -> nth_error (y_ph (Y n)) i = Some x -> nth_error (u_thr (y_u (Y n))) i = Some p -> scan_of x = Some q ->
  exists m, (n < m)%nat /\ (finds q n m \/ exists x' p', goes x' p' n m /\ scan_of x' = Some q /\ (in_sub x' = true -> in_sub x = true) /\ (smeas x' p' < smeas x p)%nat).
Proof.
  intros n x p q M0 IS N Np Q. assert (ZD : zone p \/ ~ zone p) by (destruct p; cbn; auto). destruct ZD as [Z|NZ].
  2:{ destruct (smoves n x p q M0 IS N Np Q) as (k & H & O & B). exists (S k). split; [lia|]. destruct (stretch n k x p q H N Np Q O B) as [[F _]|(x2 & p2 & G2 & Q2 & IM & [LT|(-> & a & AZ & R)])]; [auto|right; eauto 8|].
      destruct (NZ (proj1 (zone_round _ _ _ R))). }
  destruct (TIMERS i n) as (m & H & TM). destruct (zone_run n m x p q H N Np Q Z) as [F|(p1 & G1 & Z1 & S1)]; [exact F|]. pose proof G1 as (d & N1 & T1 & _ & _ & IS1).
  assert (LIFT : forall k x2 p2, (m <= k)%nat -> goes x2 p2 m (S k) -> scan_of x2 = Some q -> (in_sub x2 = true -> in_sub x = true) -> (smeas x2 p2 < smeas x p1)%nat ->
    exists m', (n < m')%nat /\ (finds q n m' \/ exists x' p', goes x' p' n m' /\ scan_of x' = Some q /\ (in_sub x' = true -> in_sub x = true) /\ (smeas x' p' < smeas x p)%nat)).
  { intros k x2 p2 Hk G2 Q2 IM LT. exists (S k). split; [lia|]. right. exists x2, p2. split; [exact (goes_trans _ _ _ _ _ _ _ IM G1 G2)|]. split; [exact Q2|]. split; [exact IM|lia]. }
  destruct TM as [AZ|NV].
  - assert (O : z_of i (az m) = true) by (rewrite AZ; apply Nat.eqb_refl).
    destruct (stretch m m x p1 q (le_n _) N1 T1 Q O) as [[F _]|(x2 & p2 & G2 & Q2 & IM & [LT|(-> & a & AZ2 & R)])]; [intros; lia| |exact (LIFT m x2 p2 (le_n _) G2 Q2 IM LT)|].
    + exists (S m). split; [lia|]. left. exact (finds_trans _ _ _ _ _ _ G1 F).
    + exfalso. rewrite AZ in AZ2. injection AZ2 as <-. destruct R as [(? & ? & _ & _ & K)|(? & ? & ? & _ & _ & K)]; discriminate K.
  - assert (IS2 : inside_since x n0 m) by (intros SB k Hk; destruct (Nat.le_gt_cases k n); [apply IS; [exact SB|lia]|apply IS1; [exact SB|lia]]).
    destruct (smoves m x p1 q ltac:(lia) IS2 N1 T1 Q) as (k & Hk & O & B). destruct (stretch m k x p1 q Hk N1 T1 Q O B) as [[F _]|(x2 & p2 & G2 & Q2 & IM & [LT|(-> & a & AZ2 & R)])]; [|exact (LIFT k x2 p2 Hk G2 Q2 IM LT)|].
    + exists (S k). split; [lia|]. left. exact (finds_trans _ _ _ _ _ _ G1 F).
    + assert (SEL : forall k s st, nth_error (u_thr (y_u (Y k))) i = Some (SubWait s st) -> zexec bcast me (zs k) (times_out i) <> None).
      { intros k' s st T. assert (X : exists u, uexec (y_u (Y k')) (VTimeout i) = Some u) by (cbn [uexec]; rewrite T; eauto).
        destruct X as (u & X). destruct (yin_some bcast me (Y k') (VTimeout i) u (ey_live k') eq_refl X) as (w' & E).
        unfold zexec, times_out, z_do_y. rewrite (ex_live _ _ _ _ EX k'). cbn [y_step]. rewrite E. discriminate. }
      exfalso. destruct G2 as (_ & _ & T2 & _). destruct R as [(s & st & E1 & E2 & _)|(s & st & v & E1 & E2 & _)]; subst.
      * exact (SEL (S k) s st T2 (NV (S k) ltac:(lia))).
      * exact (SEL m s st T1 (NV m (le_n _))).
Qed.
Lemma finish : forall V n x p q, (n0 < n)%nat -> inside_since x n0 n -> (smeas x p <= V)%nat -> nth_error (y_ph (Y n)) i = Some x -> nth_error (u_thr (y_u (Y n))) i = Some p -> scan_of x = Some q ->
  exists m, (n < m)%nat /\ finds q n m.
Proof.
  induction V as [V IH] using lt_wf_ind. intros n x p q M0 IS LE N Np Q. destruct (drop n x p q M0 IS N Np Q) as (m & H & [F|(x2 & p2 & G2 & Q2 & IM & LT)]); [eauto|].
  pose proof G2 as (d & N2 & T2 & _ & _ & IS1).
  assert (IS2 : inside_since x2 n0 m) by (intros SB k Hk; destruct (Nat.le_gt_cases k n); [apply IS; [auto|lia]|apply IS1; [exact SB|lia]]).
  destruct (IH (smeas x2 p2) ltac:(lia) m x2 p2 q ltac:(lia) IS2 (le_n _) N2 T2 Q2) as (m2 & H2 & F). exists m2. split; [lia|]. exact (finds_trans _ _ _ _ _ _ G2 F).
Qed.
End Execution.

Lemma scan_begins : forall bcast me zs az n i q, execution bcast me zs az -> az n = ZScan i q ->
  nth_error (y_ph (z_y (zs (S n)))) i = Some (YSub q TNot false) /\ (exists p, nth_error (u_thr (y_u (z_y (zs (S n))))) i = Some p) /\ y_done (z_y (zs (S n))) = y_done (z_y (zs n)).
Proof.
  intros bcast me zs az n i q EX A. pose proof (ex_live _ _ _ _ EX n) as LV. pose proof (ey_live _ _ _ _ EX (S n)) as LV'.
  destruct EX as [_ E]. specialize (E n). unfold zexec in E. rewrite LV, A in E. unfold z_do_y in E. destruct (z_free _ _) eqn:FR; [|discriminate]. destruct (free_parts _ _ FR) as (_ & F2 & _).
  destruct (yexec bcast me (z_y (zs n)) (YCall i q)) as [y|] eqn:EY; [|discriminate]. injection E as E. rewrite <- E in LV' |- *. cbn [z_y] in LV' |- *. unfold yexec in EY. destruct (y_dead (z_y (zs n))); [discriminate|]. rewrite F2 in EY.
  destruct (scan_frame _ _ _); [|injection EY as <-; discriminate LV']. destruct (uexec _ _) as [u|] eqn:X; [|discriminate]. injection EY as <-. cbn [uexec] in X.
  destruct (nth_error (u_thr (y_u (z_y (zs n)))) i) as [p|] eqn:Np; [|discriminate]. destruct p; try discriminate X. injection X as <-. cbn. split; [apply (upd_same _ _ _ _ _ F2)|]. split; [|reflexivity].
  eexists. apply (upd_same _ _ _ _ _ Np).
Qed.
Lemma scans_return : forall bcast me zs az n i q, execution bcast me zs az -> fair bcast me zs az -> deadlines bcast me zs az -> az n = ZScan i q ->
  (forall m, (n < m)%nat -> (forall k, (n < k <= m)%nat -> scanning (z_y (zs k)) i) -> ~ SpecScan.stuck (z_y (zs m))) ->
  exists m f, (n < m)%nat /\ first_found i f (y_done (z_y (zs n))) (y_done (z_y (zs m))) /\ sd_req f = q.
Proof.
  intros bcast me zs az n i q EX FAIR TM A FREE. destruct (scan_begins _ _ _ _ _ _ _ EX A) as (N & (p & Np) & D).
  assert (IS : inside_since zs i (YSub q TNot false) n (S n)) by (intros _ k Hk; replace k with (S n) by lia; unfold scanning; eauto).
  destruct (finish _ _ _ _ EX FAIR i n FREE TM _ (S n) _ p q ltac:(lia) IS (le_n _) N Np eq_refl) as (m & H & f & d & F & OD & FT & FR).
  exists m, f. split; [lia|]. split; [|exact FR]. exists d. rewrite F, D. split; [reflexivity|]. split; [exact FT|exact OD].
Qed.

(** ** The exact condition *)
Lemma stuck_stays : forall bcast me zs az m k, execution bcast me zs az -> SpecScan.stuck (z_y (zs m)) -> (m <= k)%nat ->
  SpecScan.stuck (z_y (zs k)) /\ forall i, scanning (z_y (zs m)) i -> scanning (z_y (zs k)) i.
Proof.
  intros bcast me zs az m k EX S H. induction H as [|k H (IS & IC)]; [auto|].
  destruct (ex_run _ _ _ _ EX k) as (l & R). destruct (whole_scans _ _ _ _ R) as (ly & RY & _). destruct EX as [_ E]. specialize (E k).
  assert (R1 : zrun bcast me (zs k) [az k] = Some (zs (Datatypes.S k))) by (cbn [zrun]; rewrite E; reflexivity).
  destruct (y_follows _ _ _ _ _ R1) as (ly' & R'). destruct (stuck_run _ _ _ _ _ _ RY IS R') as [A B]. auto.
Qed.
Lemma in_subscribe : forall bcast me zs az i n m, execution bcast me zs az -> (n <= m)%nat -> (forall k, (n <= k <= m)%nat -> scanning (z_y (zs k)) i) ->
  exists d, y_done (z_y (zs m)) = d ++ y_done (z_y (zs n)) /\ others' i d.
Proof.
  intros bcast me zs az i n m EX H. induction H as [|m H IH]; intros SC; [exists []; split; [reflexivity|intros g []]|].
  destruct IH as (d & D & OD); [intros k Hk; apply SC; lia|]. destruct (SC m ltac:(lia)) as (q & t & e & N).
  destruct (z_of i (az m)) eqn:O.
  - destruct (ex_y _ _ _ _ EX m) as (seen & I). assert (NP : exists p, nth_error (u_thr (y_u (z_y (zs m)))) i = Some p).
    { pose proof (y_phs _ _ I i) as P. unfold phase_ok in P. rewrite N in P. destruct (nth_error (u_thr (y_u (z_y (zs m)))) i); [eauto|destruct P]. }
    destruct NP as (p & Np). destruct (stretch _ _ _ _ EX i m m _ p q (le_n _) N Np eq_refl O) as [[_ K]|(x' & p' & (d2 & _ & _ & D2 & OD2 & _) & _)]; [intros; lia|discriminate K|].
    exists (d2 ++ d). rewrite D2, D, app_assoc. split; [reflexivity|]. intros g G. apply in_app_or in G. destruct G; auto.
  - destruct (ey_stay _ _ _ _ EX m i _ N ltac:(discriminate) O) as (_ & _ & [D'|(f & D' & F)]); [exists d; split; [congruence|exact OD]|].
    exists (f :: d). split; [rewrite D', D; reflexivity|]. intros g [<-|G]; auto.
Qed.
Lemma never_returns : forall bcast me zs az n i q m, execution bcast me zs az -> az n = ZScan i q -> (n < m)%nat ->
  (forall k, (n < k <= m)%nat -> scanning (z_y (zs k)) i) -> SpecScan.stuck (z_y (zs m)) ->
  forall m' f, (n < m')%nat -> ~ first_found i f (y_done (z_y (zs n))) (y_done (z_y (zs m'))).
Proof.
  intros bcast me zs az n i q m EX A H SC ST m' f H' (d & E & FT & _). destruct (scan_begins _ _ _ _ _ _ _ EX A) as (_ & _ & D).
  assert (SA : forall k, (S n <= k)%nat -> scanning (z_y (zs k)) i).
  { intros k Hk. destruct (Nat.le_gt_cases k m); [apply SC; lia|]. apply (proj2 (stuck_stays _ _ _ _ m k EX ST ltac:(lia))). apply SC. lia. }
  destruct (in_subscribe _ _ _ _ i (S n) m' EX H') as (d' & E' & OD); [intros; apply SA; lia|]. rewrite E', D in E.
  change (f :: d ++ y_done (z_y (zs n))) with ((f :: d) ++ y_done (z_y (zs n))) in E. apply app_inv_tail in E. subst d'. apply (OD f); [left; reflexivity|exact FT].
Qed.
Lemma scans_exact : forall bcast me zs az n i q, execution bcast me zs az -> fair bcast me zs az -> deadlines bcast me zs az -> az n = ZScan i q ->
  ((exists m f, (n < m)%nat /\ first_found i f (y_done (z_y (zs n))) (y_done (z_y (zs m))) /\ sd_req f = q) <->
   ~ exists m, (n < m)%nat /\ (forall k, (n < k <= m)%nat -> scanning (z_y (zs k)) i) /\ SpecScan.stuck (z_y (zs m))).
Proof.
  intros bcast me zs az n i q EX FAIR TM A. split.
  - intros (m & f & H & F & _) (m1 & H1 & SC & ST). exact (never_returns _ _ _ _ _ _ _ _ EX A H1 SC ST m f H F).
  - intros NH. apply (scans_return bcast me zs az n i q EX FAIR TM A). intros m H SC ST. apply NH. eauto.
Qed.

(** ** Announcements one at a time *)
Lemma gentle_cinv : forall bcast me zs az n, execution bcast me zs az -> gentle zs az -> cinv (z_y (zs n)).
Proof.
  intros bcast me zs az n EX GT. induction n as [|n IH].
  { destruct EX as [-> _]. constructor; [intros [|i] ps b N; discriminate|intros [|i] j (? & ? & N); discriminate|intros [|i] (? & ? & N); discriminate]. }
  destruct (ex_y _ _ _ _ EX n) as (seen & I). pose proof (ex_live _ _ _ _ EX n) as LV. destruct EX as [_ E]. specialize (E n). specialize (GT n). unfold zexec in E. rewrite LV in E. unfold z_do_w, z_do_y in E.
  destruct (az n) as [|j rq'|j q|j src b|j|a|a].
  - destruct (wexec _ _ _) as [w|]; [|discriminate]. destruct (yexec bcast me (z_y (zs n)) YSpawn) as [y|] eqn:EY; [|discriminate]. injection E as <-. eapply calm_exec; [exact I|exact IH| |exact EY]. discriminate.
  - destruct (z_free _ _); [|discriminate]. destruct (wexec _ _ _) as [w|]; [|discriminate]. injection E as <-. exact IH.
  - destruct (z_free _ _); [|discriminate]. destruct (yexec bcast me (z_y (zs n)) (YCall j q)) as [y|] eqn:EY; [|discriminate]. injection E as <-. eapply calm_exec; [exact I|exact IH| |exact EY]. discriminate.
  - destruct (z_free _ _); [|discriminate]. destruct (yexec bcast me (z_y (zs n)) (YArrive j src b false)) as [y|] eqn:EY; [|discriminate]. injection E as <-. eapply calm_exec; [exact I|exact IH| |exact EY].
    intros i src' b' known K. injection K as <- <- <- <-. rewrite (published_known _ (fun _ => true)). exact (GT j src b eq_refl).
  - destruct (nth_error (y_ph (z_y (zs n))) j) as [[]|]; try discriminate E. destruct (nth_error (z_rest (zs n)) j) as [[[src b]|]|]; try discriminate E.
    destruct (wexec _ _ _) as [w|]; [|discriminate]. injection E as <-. exact IH.
  - destruct (w_step a); [|discriminate]. destruct (wexec _ _ _) as [w|]; [|discriminate]. injection E as <-. exact IH.
  - destruct (y_step a) eqn:ST; [|discriminate]. destruct (yexec bcast me (z_y (zs n)) a) as [y|] eqn:EY; [|discriminate]. injection E as <-. eapply calm_exec; [exact I|exact IH| |exact EY].
    intros i src b known ->. discriminate ST.
Qed.
Lemma cinv_free : forall seen w, yinv seen w -> cinv w -> ~ SpecScan.stuck w.
Proof.
  intros seen w I C (k & j & s & p & id & lft & x & store & Np & E & W & O & _ & Q & _).
  assert (handling w k) as Hk by (eapply publisher_handles; [exact I|exact Np|destruct p; discriminate]).
  destruct (c_served w C k Hk p Np) as [_ S]. specialize (S id lft s E W). unfold queue in S. rewrite O in S. contradiction.
Qed.
Lemma gentle_return : forall bcast me zs az n i q, execution bcast me zs az -> fair bcast me zs az -> deadlines bcast me zs az -> gentle zs az -> az n = ZScan i q ->
  exists m f, (n < m)%nat /\ first_found i f (y_done (z_y (zs n))) (y_done (z_y (zs m))) /\ sd_req f = q.
Proof.
  intros bcast me zs az n i q EX FAIR TM GT A. apply (scans_return bcast me zs az n i q EX FAIR TM A). intros m _ _. destruct (ex_y _ _ _ _ EX m) as (seen & I).
  apply (cinv_free seen); [exact I|]. exact (gentle_cinv _ _ _ _ m EX GT).
Qed.

(** ** Runs after which everybody waits *)
Definition y_waits (x : sphase) : bool := match x with YFree | YHandle _ _ | YSub _ (TOffer _ _) _ => true | _ => false end.
Definition u_blocked (u : usys) (ip : nat * upc) : bool := match snd ip with SubWait _ _ => false | p => match ustep u (fst ip) p with None => true | Some _ => false end end.
Definition halted (z : whole) : Prop :=
  z_dead z = false /\ (forall i x, nth_error (w_ph (z_w z)) i = Some x -> x = NFree) /\ (forall i p, nth_error (sy_thr (w_tsm (z_w z))) i = Some p -> p = PIdle) /\
  (forall i x, nth_error (y_ph (z_y z)) i = Some x -> y_waits x = true) /\ (forall i p, nth_error (u_thr (y_u (z_y z))) i = Some p -> u_blocked (y_u (z_y z)) (i, p) = true) /\
  (forall i o, nth_error (z_rest z) i = Some (Some o) -> nth_error (y_ph (z_y z)) i <> Some YFree) /\ length (z_rest z) = length (y_ph (z_y z)).
Definition halting (z : whole) : bool :=
  negb (z_dead z) && forallb (fun x => match x with NFree => true | _ => false end) (w_ph (z_w z)) &&
  forallb (fun p => match p with PIdle => true | _ => false end) (sy_thr (w_tsm (z_w z))) &&
  forallb y_waits (y_ph (z_y z)) &&
  forallb (u_blocked (y_u (z_y z))) (combine (seq 0 (length (u_thr (y_u (z_y z))))) (u_thr (y_u (z_y z)))) &&
  forallb (fun io => match snd io, nth_error (y_ph (z_y z)) (fst io) with Some _, Some YFree => false | _, _ => true end) (combine (seq 0 (length (z_rest z))) (z_rest z)) && Nat.eqb (length (z_rest z)) (length (y_ph (z_y z))).
Lemma indexed : forall A (l : list A) i x, nth_error l i = Some x -> In (i, x) (combine (seq 0 (length l)) l).
Proof.
  intros A l i x H. assert (G : forall k, In (k + i, x)%nat (combine (seq k (length l)) l)).
  { revert i H. induction l as [|y l IH]; intros [|i] H k; try discriminate H; cbn.
    - injection H as ->. left. rewrite Nat.add_0_r. reflexivity.
    - right. specialize (IH i H (S k)). replace (k + S i)%nat with (S k + i)%nat by lia. exact IH. }
  exact (G 0%nat).
Qed.
Lemma halting_halted : forall z, halting z = true -> halted z.
Proof.
  intros z H. unfold halting in H. repeat (apply andb_true_iff in H; destruct H as [H ?]). rewrite negb_true_iff in H. split; [exact H|].
  repeat match goal with K : forallb _ _ = true |- _ => rewrite forallb_forall in K end. repeat split.
  - intros i x N. apply nth_error_In in N. match goal with K : forall y, In y (w_ph _) -> _ |- _ => specialize (K x N) end. destruct x; try discriminate; reflexivity.
  - intros i x N. apply nth_error_In in N. match goal with K : forall y, In y (sy_thr _) -> _ |- _ => specialize (K x N) end. destruct x; try discriminate; reflexivity.
  - intros i x N. apply nth_error_In in N. match goal with K : forall y, In y (y_ph _) -> _ |- _ => exact (K x N) end.
  - intros i p N. apply indexed in N. match goal with K : forall y, In y (combine _ (u_thr _)) -> _ |- _ => exact (K _ N) end.
  - intros i o N F. apply indexed in N. match goal with K : forall y, In y (combine _ (z_rest _)) -> _ |- _ => specialize (K _ N) end. cbn [fst snd] in *. rewrite F in *. discriminate.
  - apply Nat.eqb_eq. assumption.
Qed.
Lemma halted_spawn : forall bcast me z, halted z -> exists z', zexec bcast me z ZSpawn = Some z' /\ halted z' /\ y_done (z_y z') = y_done (z_y z).
Proof.
  intros bcast me z (D & A1 & A2 & A3 & A4 & A5 & A6). destruct (z_live _ D) as (YL & W & C).
  unfold zexec. rewrite D. unfold wexec, yexec, exec. rewrite YL, W, C. cbn [uexec]. eexists. split; [reflexivity|]. split; [|reflexivity].
  unfold halted. cbn [z_w z_y z_rest w_ph w_tsm y_ph y_u]. fields. ufields. unfold z_dead. cbn [z_y z_w y_dead w_dead w_tsm]. fields. rewrite C.
  split; [rewrite ?YL, ?W; reflexivity|]. split; [apply snoc_all; auto|]. split; [apply snoc_all; auto|]. split; [apply snoc_all; auto|]. split.
  - intros i p N. destruct (Nat.lt_ge_cases i (length (u_thr (y_u (z_y z))))) as [L|L].
    + rewrite nth_error_app1 in N by exact L. specialize (A4 i p N). unfold u_blocked in *. cbn [fst snd] in *. revert A4.
      destruct p; auto; cbn [ustep]; ufields; repeat match goal with |- context [match ?v with _ => _ end] => match v with context [match _ with _ => _ end] => fail 1 | _ => destruct v end end; auto.
    + rewrite nth_error_app2 in N by exact L. destruct (i - length _)%nat as [|[|]]; try discriminate N. injection N as <-. reflexivity.
  - split; [|rewrite !app_length, A6; reflexivity]. intros i o N F.
    destruct (Nat.lt_ge_cases i (length (z_rest z))) as [L|L]; [|rewrite nth_error_app2 in N by exact L; destruct (i - length _)%nat as [|[|]]; discriminate N].
    rewrite nth_error_app1 in N by exact L. rewrite nth_error_app1 in F by lia. exact (A5 i o N F).
Qed.
Lemma halted_still : forall bcast me z i, halted z -> ~ can_move bcast me z i.
Proof.
  intros bcast me z i (D & A1 & A2 & A3 & A4 & A5 & A6) (a & z' & O & E). unfold zexec in E. rewrite D in E.
  destruct a as [| | | |j|a|a]; try discriminate O; cbn [z_of] in O.
  - destruct (nth_error (y_ph (z_y z)) j) as [[]|] eqn:F; try discriminate E. destruct (nth_error (z_rest z) j) as [[o|]|] eqn:R; try discriminate E. exact (A5 _ _ R F).
  - destruct (w_step a) eqn:ST; [|discriminate]. unfold z_do_w, wexec in E. destruct (w_dead (z_w z)); [discriminate|].
    destruct a as [| | |j ok|j|b]; try discriminate ST.
    + destruct (nth_error (w_ph (z_w z)) j) as [x|] eqn:N; [|discriminate]. rewrite (A1 _ _ N) in E. discriminate E.
    + destruct (nth_error (w_ph (z_w z)) j) as [x|] eqn:N; [|discriminate]. rewrite (A1 _ _ N) in E. discriminate E.
    + destruct (exec (w_tsm (z_w z)) b) as [s|] eqn:X; [|destruct (inside b); discriminate E]. unfold exec in X. destruct (sy_crash _); [discriminate|].
      destruct b as [| |j|j|j k|j k|k]; try discriminate O;
        (destruct (nth_error (sy_thr (w_tsm (z_w z))) j) as [p|] eqn:N; [|discriminate X]; rewrite (A2 _ _ N) in X; cbn in X; discriminate X).
  - destruct (y_step a) eqn:ST; [|discriminate]. unfold z_do_y, yexec in E. destruct (y_dead (z_y z)); [discriminate|].
    destruct a as [| | |j ok|j|j|j|b]; try discriminate ST;
      try (destruct (nth_error (y_ph (z_y z)) j) as [x|] eqn:N; [|discriminate]; pose proof (A3 _ _ N) as K; destruct x as [|? [] ?|? ? ? [] ?|? ? ? [] ?|]; try discriminate K; discriminate E).
    destruct (uexec (y_u (z_y z)) b) as [u|] eqn:X; [|destruct (y_inside b); discriminate E].
    destruct b as [| |j|j|j]; try discriminate O; cbn [uexec] in X; (destruct (nth_error (u_thr (y_u (z_y z))) j) as [p|] eqn:N; [|discriminate X]; specialize (A4 _ _ N); unfold u_blocked in A4; cbn [fst snd] in A4;
      destruct p; try discriminate A4; try discriminate X; rewrite X in A4; discriminate A4).
Qed.
Lemma halted_run : forall bcast me l z, zrun bcast me z_init l = Some z -> halted z ->
  exists zs az, execution bcast me zs az /\ fair bcast me zs az /\ deadlines bcast me zs az /\ (forall n a, nth_error l n = Some a -> az n = a) /\
    (forall n, (n <= length l)%nat -> zrun bcast me z_init (firstn n l) = Some (zs n)) /\
    (forall n, (length l <= n)%nat -> az n = ZSpawn /\ y_done (z_y (zs n)) = y_done (z_y z)).
Proof.
  intros bcast me l z R AR. destruct (padded_by bcast me (fun z' => halted z' /\ y_done (z_y z') = y_done (z_y z)) l z) as (zs & az & EX & FR & A & PRE & POST); [| |exact R|auto|].
  - intros z1 (H & D). destruct (halted_spawn bcast me _ H) as (z' & E & H' & D'). exists z'. split; [exact E|]. split; [exact H'|congruence].
  - intros z1 i (H & _). apply halted_still. exact H.
  - exists zs, az. split; [exact EX|]. split; [exact FR|]. split; [|split; [exact A|split; [exact PRE|]]].
    + intros i n. exists (Nat.max n (length l)). split; [lia|]. right. intros m' H. destruct (zexec bcast me (zs m') (times_out i)) as [z'|] eqn:E; [|reflexivity].
      destruct (POST m' ltac:(lia)) as (_ & HT & _). exfalso. apply (halted_still bcast me _ i HT). exists (times_out i), z'. split; [apply Nat.eqb_refl|exact E].
    + intros n H. destruct (POST n H) as (B & _ & C). auto.
Qed.
