(** * Discovery calls and the clock *)
Require Import List ZArith Bool Lia.
From Verif Require Import ModelClient ModelSystem ModelScan ModelWhole ModelTime SpecSystem SpecUtsm SpecScan SpecWhole SpecFair SpecTime SpecTimeScan.
From Verif Require ModelTsm SpecTsm ProofsTsm ProofsTsmProps ModelUtsm ProofsUtsm ProofsUtsmProps ProofsFate.
From Verif Require Import ProofsSystem ProofsSystemProps ProofsSystemLive ProofsScan ProofsWhole ProofsFair ProofsFairWhole ProofsFairScan ProofsTime.
Import ListNotations.
Import ModelTsm ModelUtsm ProofsTsm ProofsUtsm ProofsUtsmProps ProofsFate.
Open Scope Z_scope.

Notation Yt t := (z_y (t_z t)).
Notation Ut t := (y_u (z_y (t_z t))).

(** ** What one step of a call does *)
(** the transmission has gone on *)
Inductive sent_on : sphase -> sphase -> Prop :=
| so_sub q t e t' e' : sent_on (YSub q t e) (YSub q t' e')
| so_test q s st t e t' e' : sent_on (YTest q s st t e) (YTest q s st t' e')
| so_wait q s st t e t' e' : sent_on (YWait q s st t e) (YWait q s st t' e').
Inductive yhop (i : nat) (w : syst) : sphase -> upc -> yaction -> sphase -> upc -> Prop :=
| yh_tx x x' p a : sent_on x x' -> (exists ok, a = YTx i ok) \/ a = YOffer i -> yhop i w x p a x' p
| yh_new q t e lo hi : yhop i w (YSub q t e) (SubNew lo hi) (YIn (VStep i)) (YSub q t e) (SubReg lo hi (length (u_objs (y_u w))))
| yh_reg q t e lo hi s : yhop i w (YSub q t e) (SubReg lo hi s) (YIn (VStep i)) (YSub q t e) (SubTime s [])
| yh_time q t e s st : yhop i w (YSub q t e) (SubTime s st) (YIn (VStep i)) (YSub q t e) (SubWait s st)
| yh_recv q t e s st v r : queue (y_u w) s = v :: r -> yhop i w (YSub q t e) (SubWait s st) (YIn (VRecv i)) (YSub q t e) (SubTime s (st ++ [v]))
| yh_out q t e s st : yhop i w (YSub q t e) (SubWait s st) (YIn (VTimeout i)) (YSub q t e) (SubRem s st)
| yh_rem q t e s st : yhop i w (YSub q t e) (SubRem s st) (YIn (VStep i)) (YTest q s st t false) UIdle
| yh_check q s st t e : yhop i w (YTest q s st t e) UIdle (YCheck i) (YWait q s st t e) UIdle.
Definition held (x : sphase) : list Z := match x with YTest _ _ st _ _ | YWait _ _ st _ _ => st | _ => [] end.
Definition yends (i : nat) (x : sphase) (p : upc) (a : yaction) (f : sdone) : Prop :=
  p = UIdle /\ in_sub x = false /\ sd_thread f = i /\ scan_of x = Some (sd_req f) /\ sd_store f = held x /\ (a = YCheck i \/ a = YTake i).

Lemma y_moves : forall bcast me seen w a w' i x p q, yinv seen w -> yexec bcast me w a = Some w' -> y_step a = true -> y_of i a = true ->
  nth_error (y_ph w) i = Some x -> nth_error (u_thr (y_u w)) i = Some p -> scan_of x = Some q ->
  (exists f, y_done w' = f :: y_done w /\ yends i x p a f) \/
  (exists x' p', nth_error (y_ph w') i = Some x' /\ nth_error (u_thr (y_u w')) i = Some p' /\ scan_of x' = Some q /\ y_done w' = y_done w /\ yhop i w x p a x' p').
Proof.
  intros bcast me seen w a w' i x p q I H S O N Np Q. pose proof (y_phs _ _ I i) as P. unfold phase_ok in P. rewrite N, Np in P.
  assert (UP : forall y, nth_error (upd (y_ph w) i y) i = Some y) by (intros y; apply (upd_same _ _ _ _ _ N)).
  assert (UT : forall y, nth_error (upd (u_thr (y_u w)) i y) i = Some y) by (intros y; apply (upd_same _ _ _ _ _ Np)).
  assert (D0 : y_dead w = false) by (apply (yexec_live _ _ _ _ _ H)).
  destruct a as [| | |j ok|j|j|j|a]; try discriminate S; cbn [y_of] in O; try (apply Nat.eqb_eq in O; subst j).
  - unfold yexec in H. rewrite D0, N in H. destruct x as [|q' [] ?|q' s st [] ?|q' s st [] ?|]; try discriminate H; injection H as <-; injection Q as ->;
      right; do 2 eexists; (split; [cbn; apply UP|]); (split; [exact Np|]); (split; [reflexivity|]); (split; [reflexivity|]); apply yh_tx; [constructor|eauto|constructor|eauto|constructor|eauto].
  - unfold yexec in H. rewrite D0, N in H. destruct x as [|q' [] ?|q' s st [] ?|q' s st [] ?|]; try discriminate H; injection H as <-; injection Q as ->;
      right; do 2 eexists; (split; [cbn; apply UP|]); (split; [exact Np|]); (split; [reflexivity|]); (split; [reflexivity|]); apply yh_tx; [constructor|eauto|constructor|eauto|constructor|eauto].
  - unfold yexec in H. rewrite D0, N in H. destruct x as [|q' t ?|q' s st t ?|q' s st t ?|]; try discriminate H. injection Q as ->. destruct p; try (destruct P; fail). destruct (_ && _); injection H as <-.
    + left. eexists. split; [reflexivity|]. unfold yends. cbn. repeat (split; [reflexivity|]). auto.
    + right. do 2 eexists. split; [cbn; apply UP|]. split; [exact Np|]. split; [reflexivity|]. split; [reflexivity|]. apply yh_check.
  - unfold yexec in H. rewrite D0, N in H. destruct x as [|q' t ?|q' s st t ?|q' s st [] ?|]; try discriminate H. injection Q as ->. destruct p; try (destruct P; fail). injection H as <-.
    left. eexists. split; [reflexivity|]. unfold yends. cbn. repeat (split; [reflexivity|]). auto.
  - destruct (yin_inv _ _ _ _ _ H) as (u & IN & X & R1 & R2).
    destruct x as [|q' t e0|q' s0 st0 t e0|q' s0 st0 t e0|]; try discriminate Q; injection Q as ->.
    2,3: destruct p; try (destruct P; fail); destruct a; try discriminate O; apply Nat.eqb_eq in O; subst; cbn [uexec] in X; rewrite Np in X; discriminate X.
    destruct P as [_ P].
    assert (SIL : forall p', u_thr u = upd (u_thr (y_u w)) i p' -> w' = y_setu w u -> yhop i w (YSub q t e0) p (YIn a) (YSub q t e0) p' ->
      exists x' p', nth_error (y_ph w') i = Some x' /\ nth_error (u_thr (y_u w')) i = Some p' /\ scan_of x' = Some q /\ y_done w' = y_done w /\ yhop i w (YSub q t e0) p (YIn a) x' p').
    { intros p' T -> M. exists (YSub q t e0), p'. split; [exact N|]. split; [cbn; rewrite T; apply UT|]. split; [reflexivity|]. split; [reflexivity|]. exact M. }
    right. destruct a as [| |j|j|j]; try discriminate O; apply Nat.eqb_eq in O; subst j; cbn [uexec] in X; rewrite Np in X.
    + destruct p; try (destruct P; fail); cbn [ustep] in X; try discriminate X.
      * injection X as <-. eapply SIL; [reflexivity|apply R1; reflexivity|constructor].
      * destruct (u_lock _); [discriminate|]. destruct (nth_error (u_objs (y_u w)) _); [|discriminate]. injection X as <-. specialize (R2 _ eq_refl). cbn [y_returned] in R2. injection R2 as <-.
        eapply SIL; [reflexivity|reflexivity|constructor].
      * destruct (nth_error (u_objs (y_u w)) _) as [sx|]; [|discriminate]. destruct (sb_lock sx); [discriminate|]. injection X as <-. eapply SIL; [reflexivity|apply R1; reflexivity|constructor].
      * destruct (u_lock _); [discriminate|]. injection X as <-. specialize (R2 _ eq_refl). cbn [y_returned y_setu y_ph] in R2. rewrite N in R2. injection R2 as <-.
        do 2 eexists. split; [cbn; apply UP|]. split; [cbn; apply UT|]. split; [reflexivity|]. split; [reflexivity|]. constructor.
    + destruct p; try discriminate X. destruct (nth_error (u_objs (y_u w)) _) as [sx|] eqn:O; [|discriminate]. destruct (sb_q sx) as [|v qq] eqn:SQ; [discriminate|]. injection X as <-.
      eapply SIL; [reflexivity|apply R1; reflexivity|]. apply (yh_recv i w q t e0 s store v qq). unfold queue. rewrite O. exact SQ.
    + destruct p; try discriminate X. injection X as <-. eapply SIL; [reflexivity|apply R1; reflexivity|]. constructor.
Qed.

(** ** Nobody waits in vain while nothing is stuck *)
Lemma y_idle : forall bcast me t d, zreach bcast me (t_z t) -> z_dead (t_z t) = false -> 0 < d -> idle_for bcast me t d -> ~ SpecScan.stuck (Yt t) ->
  u_lock (Ut t) = None /\ (forall j p, nth_error (u_thr (Ut t)) j = Some p -> p = UIdle \/ exists s st, p = SubWait s st /\ queue (Ut t) s = [] /\ t_now t + d <= t_due t j) /\
  (forall j x, nth_error (y_ph (Yt t)) j = Some x -> x = YFree \/ exists q f e e', x = YSub q (TOffer f e) e').
Proof.
  intros bcast me t d RE LV P ID NS. destruct (zreach_y _ _ _ RE) as (seen & I). pose proof (ureach_inv _ (y_reach _ _ I)) as UI. destruct (z_live _ LV) as (YD & _).
  assert (GY : forall e j a w', 0 <= e < d -> y_of j a = true -> y_step a = true -> may_fire (later t e) (ZY a) = true -> yexec bcast me (Yt t) a = Some w' -> False).
  { intros e j a w' HE O S M E. apply (ID e j HE). exists (ZY a). eexists. split; [exact O|]. cbn [texec]. rewrite M. cbn [later t_z]. unfold zexec, z_do_y. rewrite LV, S, E. reflexivity. }
  assert (GU : forall e j a u, 0 <= e < d -> y_of j (YIn a) = true -> y_inside a = true -> may_fire (later t e) (ZY (YIn a)) = true -> uexec (Ut t) a = Some u -> False).
  { intros e j a u HE O IN M X. destruct (yin_some bcast me (Yt t) a u YD IN X) as (w' & E). exact (GY e j (YIn a) w' HE O eq_refl M E). }
  assert (G0 : forall j u, uexec (Ut t) (VStep j) = Some u -> False).
  { intros j u X. apply (GU 0 j (VStep j) u); [lia|apply Nat.eqb_refl|reflexivity|reflexivity|exact X]. }
  assert (GR : forall j u, uexec (Ut t) (VRecv j) = Some u -> False).
  { intros j u X. apply (GU 0 j (VRecv j) u); [lia|apply Nat.eqb_refl|reflexivity|reflexivity|exact X]. }
  assert (EMPTY : forall j s st, nth_error (u_thr (Ut t)) j = Some (SubWait s st) -> queue (Ut t) s = []).
  { intros j s st N. destruct (e_sub _ UI _ _ _ _ N eq_refl) as (sx & O & _). unfold queue. rewrite O. destruct (sb_q sx) as [|v r] eqn:Q; [reflexivity|]. exfalso.
    apply (GR j (u_set (u_setobjs (Ut t) (upd (u_objs (Ut t)) s (mkSub (sb_lo sx) (sb_hi sx) r (sb_lock sx)))) j (SubTime s (st ++ [v])))). cbn [uexec]. rewrite N, O, Q. reflexivity. }
  assert (LK : u_lock (Ut t) = None).
  { destruct (u_lock (Ut t)) as [k|] eqn:L; [|reflexivity]. exfalso. destruct (a_held _ UI k L) as (p & Np).
    destruct (holder_goes _ _ _ UI L Np) as [(u & X)|(id & v & s & rest & sx & -> & O & QN)]; [exact (G0 _ _ X)|].
    destruct (awaited _ _ _ _ _ _ _ UI (fun k j s D => NS (ex_intro _ k (ex_intro _ j (ex_intro _ s D)))) Np O QN) as (j & st & Nj).
    apply QN. pose proof (EMPTY _ _ _ Nj) as E. unfold queue in E. rewrite O in E. exact E. }
  assert (TH : forall j p, nth_error (u_thr (Ut t)) j = Some p -> p = UIdle \/ exists s st, p = SubWait s st).
  { intros j p N. destruct (pub_holds p) eqn:PH; [pose proof (proj1 (a_lock _ UI j p N) PH) as K; congruence|].
    assert (OB : forall s, In s (owned p) -> exists sx, nth_error (u_objs (Ut t)) s = Some sx).
    { intros s IN. pose proof (c_range _ UI _ _ _ N IN) as R. destruct (nth_error (u_objs (Ut t)) s) as [sx|] eqn:O; [eauto|apply nth_error_None in O; lia]. }
    destruct p; try discriminate PH; auto; try (right; eauto; fail); exfalso; (eapply G0 with (j := j)); cbn [uexec]; rewrite N; cbn [ustep]; rewrite ?LK; try reflexivity.
    - destruct (OB s) as (sx & O); [left; reflexivity|]. rewrite O. reflexivity.
    - destruct (OB s) as (sx & O); [left; reflexivity|]. rewrite O. destruct (sb_lock sx) as [k|] eqn:B; [|reflexivity]. destruct (sub_lock_holder _ _ _ _ UI O B) as [K _]. congruence. }
  split; [exact LK|]. split.
  - intros j p N. destruct (TH j p N) as [->|(s & st & ->)]; [auto|]. right. exists s, st. split; [reflexivity|]. split; [exact (EMPTY _ _ _ N)|].
    destruct (Z_le_gt_dec (t_now t + d) (t_due t j)) as [L|L]; [exact L|]. exfalso.
    apply (GU (d - 1) j (VTimeout j) (u_set (Ut t) j (SubRem s st))); [lia|apply Nat.eqb_refl|reflexivity| |cbn [uexec]; rewrite N; reflexivity].
    cbn [may_fire later t_due t_now]. apply Z.leb_le. lia.
  - intros j x N. pose proof (y_phs _ _ I j) as PO. unfold phase_ok in PO. rewrite N in PO. destruct (nth_error (u_thr (Ut t)) j) as [p|] eqn:Np; [|destruct x as [| | | |[|[]]]; destruct PO].
    assert (SN : forall q0 tx e0, x = YSub q0 tx e0 -> exists f e, tx = TOffer f e).
    { intros q0 tx e0 ->. destruct tx as [|f|f e]; [exfalso|exfalso|eauto].
      - eapply (GY 0 j (YTx j true)); [lia|apply Nat.eqb_refl|reflexivity|reflexivity|]. unfold yexec. rewrite YD, N. reflexivity.
      - eapply (GY 0 j (YOffer j)); [lia|apply Nat.eqb_refl|reflexivity|reflexivity|]. unfold yexec. rewrite YD, N. reflexivity. }
    destruct x as [|q0 tx e0|q0 s st tx e0|q0 s st tx e0|[|[k x] ps] b].
    + auto.
    + destruct (SN _ _ _ eq_refl) as (f & e & ->). right. eauto.
    + exfalso. destruct (y_enabled bcast me _ _ j _ p q0 I YD N Np eq_refl) as (a & w' & O & S & E); [discriminate|]. apply (GY 0 j a w'); [lia|exact O|exact S| |exact E].
      destruct a as [| | | | | | |[]]; try reflexivity. exfalso. unfold yexec in E. rewrite YD in E. cbn [y_inside uexec] in E. cbn in O. apply Nat.eqb_eq in O. subst. rewrite Np in E. destruct p; try (destruct PO; fail). discriminate E.
    + exfalso. destruct (y_enabled bcast me _ _ j _ p q0 I YD N Np eq_refl) as (a & w' & O & S & E); [discriminate|]. apply (GY 0 j a w'); [lia|exact O|exact S| |exact E].
      destruct a as [| | | | | | |[]]; try reflexivity. exfalso. unfold yexec in E. rewrite YD in E. cbn [y_inside uexec] in E. cbn in O. apply Nat.eqb_eq in O. subst. rewrite Np in E. destruct p; try (destruct PO; fail). discriminate E.
    + destruct PO.
    + exfalso. destruct PO as (v & K & _). destruct (TH j p Np) as [->|(s & st & ->)]; discriminate K.
Qed.

(** ** The clocks of a call *)
Lemma end_other : forall t a i, z_of i a = false -> t_end (clocks t a) i = t_end t i.
Proof.
  intros t a i O. unfold clocks, clock_tsm, clock_utsm. destruct a as [|j rq| | | |[| | | | |[]]|[| | | | | | |[]]]; try reflexivity.
  - destruct (nth_error _ _) as [[]|]; reflexivity.
  - cbn in O. apply Nat.eqb_neq in O. destruct (nth_error _ _) as [[]|]; try reflexivity. apply at_other. auto.
Qed.
Lemma heard_step : forall t a s, t_heard (clocks t a) s = t_heard t s \/
  t_heard (clocks t a) s = t_now t /\ (s = length (u_objs (Ut t)) \/ exists j id v rest, a = ZY (YIn (VStep j)) /\ nth_error (u_thr (Ut t)) j = Some (PubSub id v s rest)).
Proof.
  intros t a s. unfold clocks, clock_tsm, clock_utsm. destruct a as [|j rq| | | |[| | | | |[]]|[| | | | | | |[| |j| |]]]; auto.
  - left. destruct (nth_error _ _) as [[]|]; reflexivity.
  - destruct (nth_error (u_thr (Ut t)) j) as [[]|] eqn:N; auto.
    + cbn [set_heard t_heard]. destruct (Nat.eq_dec s s0) as [->|D]; [|left; apply at_other; exact D]. right. rewrite at_same. split; [reflexivity|]. right. eauto 6.
    + cbn [set_heard t_heard]. destruct (Nat.eq_dec s (length (u_objs (Ut t)))) as [->|D]; [|left; apply at_other; exact D]. right. rewrite at_same. auto.
Qed.
Definition scans (i : nat) (q : scan) (t : timed) (x : sphase) (p : upc) : Prop :=
  nth_error (y_ph (Yt t)) i = Some x /\ scan_of x = Some q /\ nth_error (u_thr (Ut t)) i = Some p.
(** the clocks after a step of its own *)
Definition own_clocks (i : nat) (t t' : timed) (p : upc) (a : yaction) : Prop :=
  match a with
  | YIn (VStep _) =>
      match p with
      | SubNew _ _ => t_heard t' (length (u_objs (Ut t))) = t_now t
      | SubReg _ _ _ => t_end t' i = t_now t + 10000
      | SubTime s _ => t_due t' i = Z.min (t_end t i) (t_heard t s + 2000) /\ t_end t' i = t_end t i
      | _ => True
      end
  | YIn (VTimeout _) => t_due t i <= t_now t
  | _ => t_due t' i = t_due t i /\ t_end t' i = t_end t i
  end.
Lemma scans_step : forall bcast me t a t' i q x p, zreach bcast me (t_z t) -> texec bcast me t (TDo a) = Some t' -> scans i q t x p ->
  (scans i q t' x p /\ t_due t' i = t_due t i /\ t_end t' i = t_end t i /\ scans_of i t' = scans_of i t /\ z_of i a = false) \/
  (exists b x' p', a = ZY b /\ yhop i (Yt t) x p b x' p' /\ scans i q t' x' p' /\ own_clocks i t t' p b /\ scans_of i t' = scans_of i t) \/
  (exists b f, a = ZY b /\ yends i x p b f /\ sd_req f = q /\ scans_of i t' = f :: scans_of i t).
Proof.
  intros bcast me t a t' i q x p RE T (N & Q & Np). destruct (texec_do _ _ _ _ _ T) as (z & M & E & ->).
  assert (NF : x <> YFree) by (intros ->; discriminate Q). destruct (zreach_y _ _ _ RE) as (seen & I).
  destruct (z_of i a) eqn:O.
  - right. destruct (zy_own _ _ _ _ _ _ _ RE E N NF O) as (b & -> & S & OY & EY).
    destruct (y_moves _ _ _ _ _ _ _ _ _ _ I EY S OY N Np Q) as [(f & D & EN)|(x' & p' & N' & Np' & Q' & D & H)].
    + right. exists b, f. split; [reflexivity|]. split; [exact EN|]. destruct EN as (_ & _ & TH & SQ & _). split; [congruence|].
      unfold scans_of. cbn [set_z t_z]. rewrite D. cbn [filter]. rewrite TH, Nat.eqb_refl. reflexivity.
    + left. exists b, x', p'. split; [reflexivity|]. split; [exact H|]. split; [exact (conj N' (conj Q' Np'))|]. split.
      * destruct H; cbn [own_clocks set_z t_due t_end t_heard clocks clock_utsm].
        -- destruct H0 as [(ok & ->)| ->]; split; reflexivity.
        -- rewrite Np. cbn [set_heard t_heard]. apply at_same.
        -- rewrite Np. cbn [set_end t_end]. apply at_same.
        -- rewrite Np. cbn [clock_utsm set_due t_due t_end]. rewrite at_same. split; reflexivity. 
        -- split; reflexivity.
        -- cbn [may_fire] in M. apply Z.leb_le. exact M.
        -- exact Logic.I.
        -- split; reflexivity.
      * unfold scans_of. cbn [set_z t_z]. rewrite D. reflexivity.
  - left. destruct (zy_stay _ _ _ _ _ _ _ RE E N NF O) as (N' & Np' & D). split; [split; [exact N'|split; [exact Q|cbn [set_z t_z]; congruence]]|].
    split; [|split; [apply end_other; exact O|split; [|reflexivity]]].
    + apply due_other; [exact O|]. intros rq' ->. pose proof (zexec_live _ _ _ _ _ E) as LV. unfold zexec in E. rewrite LV in E. destruct (z_free (t_z t) i) eqn:FR; [|discriminate].
      destruct (free_parts _ _ FR) as (_ & F2 & _). congruence.
    + unfold scans_of. cbn [set_z t_z]. destruct D as [->|(f & -> & NE)]; [reflexivity|]. cbn [filter]. rewrite (proj2 (Nat.eqb_neq _ _) NE). reflexivity.
Qed.
Lemma scan_starts : forall bcast me t i q t', texec bcast me t (TDo (ZScan i q)) = Some t' -> z_dead (t_z t') = false ->
  scans i q t' (YSub q TNot false) (SubNew (fst (scan_range q)) (snd (scan_range q))) /\ t_now t' = t_now t /\ scans_of i t' = scans_of i t.
Proof.
  intros bcast me t i q t' T LV'. destruct (texec_do _ _ _ _ _ T) as (z & _ & E & ->). cbn [clocks set_z t_now t_z] in *.
  pose proof (zexec_live _ _ _ _ _ E) as LV. unfold zexec in E. rewrite LV in E.
  destruct (z_free _ _) eqn:F; [|discriminate]. destruct (free_parts _ _ F) as (_ & F2 & _). unfold z_do_y, yexec in E. destruct (y_dead _); [discriminate|]. rewrite F2 in E.
  destruct (scan_frame _ _ _) as [fr|]; [|injection E as <-; unfold z_dead in LV'; cbn in LV'; rewrite ?orb_true_r in LV'; discriminate LV'].
  cbn [uexec] in E. destruct (nth_error (u_thr (Ut t)) i) as [[]|] eqn:TH; try discriminate E.
  injection E as <-. split; [|auto]. split; [cbn; apply (upd_same _ _ _ _ _ F2)|]. split; [reflexivity|]. cbn. apply (upd_same _ _ _ _ _ TH).
Qed.
Lemma ydone_grows : forall bcast me w a w', yexec bcast me w a = Some w' -> exists d, y_done w' = d ++ y_done w.
Proof.
  intros bcast me w a w' H. unfold yexec in H. destruct (y_dead w); [discriminate|].
  assert (PB : forall v k ps b v', y_publish v k ps b = Some v' -> y_done v' = y_done v).
  { clear H. intros v k ps b v' P. unfold y_publish in P. destruct ps as [|[? ?] ps]; [injection P as <-; destruct b; reflexivity|]. destruct (uexec _ _); [|discriminate]. injection P as <-. reflexivity. }
  destruct a as [|j q|j src b known|j ok|j|j|j|a].
  - cbn [uexec] in H. injection H as <-. exists []. reflexivity.
  - destruct (nth_error (y_ph w) j) as [[]|]; try discriminate H. destruct (scan_frame _ _ _); [|injection H as <-; exists []; reflexivity]. destruct (uexec _ _); [|discriminate]. injection H as <-. exists []. reflexivity.
  - destruct (nth_error (y_ph w) j) as [[]|]; try discriminate H. destruct (handleMsg _ _ _) as [eff pn]. exists []. exact (PB _ _ _ _ _ H).
  - destruct (nth_error (y_ph w) j) as [[|q [] ?|q s st [] ?|q s st [] ?|]|]; try discriminate H; injection H as <-; exists []; reflexivity.
  - destruct (nth_error (y_ph w) j) as [[|q [] ?|q s st [] ?|q s st [] ?|]|]; try discriminate H; injection H as <-; exists []; reflexivity.
  - destruct (nth_error (y_ph w) j) as [[|q t ?|q s st t ?|q s st t ?|]|]; try discriminate H. destruct (_ && _); injection H as <-; [eexists [_]|exists []]; reflexivity.
  - destruct (nth_error (y_ph w) j) as [[|q t ?|q s st t ?|q s st [] ?|]|]; try discriminate H. injection H as <-. eexists [_]. reflexivity.
  - exists []. destruct (y_inside a); [|discriminate]. destruct (uexec (y_u w) a) as [u|]; [|discriminate].
    destruct (Nat.eqb _ _); [injection H as <-; reflexivity|]. destruct (u_log u) as [|e t]; [injection H as <-; reflexivity|].
    destruct e; cbn [y_returned] in H; try (injection H as <-; reflexivity).
    + destruct (nth_error _ _) as [[| | | |[|? ps] b]|] in H; try (injection H as <-; reflexivity). rewrite (PB _ _ _ _ _ H). reflexivity.
    + destruct (nth_error _ _) as [[| | | |]|] in H; injection H as <-; reflexivity.
Qed.
(** what a step of the client is for discovery *)
Lemma zexec_y : forall bcast me z a z', zexec bcast me z a = Some z' -> z_y z' = z_y z \/ exists b, yexec bcast me (z_y z) b = Some (z_y z') /\
  match a with ZSpawn => b = YSpawn | ZScan i q => b = YCall i q | ZArrive i src o => b = YArrive i src o false | ZY b' => b = b' /\ y_step b = true | _ => False end.
Proof.
  intros bcast me z a z' E. pose proof (zexec_live _ _ _ _ _ E) as LV. unfold zexec in E. rewrite LV in E. unfold z_do_w, z_do_y in E.
  destruct a as [|j rq'|j q|j src b|j|a|a].
  - destruct (wexec _ _ _) as [w|]; [|discriminate]. destruct (yexec bcast me (z_y z) YSpawn) as [y|] eqn:EY; [|discriminate]. injection E as <-. eauto.
  - destruct (z_free _ _); [|discriminate]. destruct (wexec _ _ _) as [w|]; [|discriminate]. injection E as <-. auto.
  - destruct (z_free _ _); [|discriminate]. destruct (yexec bcast me (z_y z) (YCall j q)) as [y|] eqn:EY; [|discriminate]. injection E as <-. eauto.
  - destruct (z_free _ _); [|discriminate]. destruct (yexec bcast me (z_y z) (YArrive j src b false)) as [y|] eqn:EY; [|discriminate]. injection E as <-. eauto.
  - destruct (nth_error (y_ph (z_y z)) j) as [[]|]; try discriminate E. destruct (nth_error (z_rest z) j) as [[[src b]|]|]; try discriminate E.
    destruct (wexec _ _ _) as [w|]; [|discriminate]. injection E as <-. auto.
  - destruct (w_step a); [|discriminate]. destruct (wexec _ _ _) as [w|]; [|discriminate]. injection E as <-. auto.
  - destruct (y_step a) eqn:ST; [|discriminate]. destruct (yexec bcast me (z_y z) a) as [y|] eqn:EY; [|discriminate]. injection E as <-. eauto.
Qed.
Lemma scans_grow : forall bcast me l t t' i, trun bcast me t l = Some t' -> exists d, scans_of i t' = d ++ scans_of i t.
Proof.
  intros bcast me l. induction l as [|a l IH]; intros t t' i H; cbn [trun] in H; [injection H as <-; exists []; reflexivity|].
  destruct (texec bcast me t a) as [t1|] eqn:E; [|discriminate]. destruct (IH _ _ i H) as (d & ->).
  assert (G : exists d1, scans_of i t1 = d1 ++ scans_of i t).
  { destruct a as [a|dd].
    - destruct (texec_do _ _ _ _ _ E) as (z & _ & Z & ->). unfold scans_of. cbn [set_z t_z]. destruct (zexec_y _ _ _ _ _ Z) as [->|(b & EY & _)]; [exists []; reflexivity|].
      destruct (ydone_grows _ _ _ _ _ EY) as (d1 & D). rewrite D, filter_app. eauto.
    - cbn [texec] in E. destruct (0 <? dd); [|discriminate]. injection E as <-. exists []. reflexivity. }
  destruct G as (d1 & ->). exists (d ++ d1). apply app_assoc.
Qed.
Lemma heard_now : forall bcast me l t t', trun bcast me t l = Some t' -> (forall s, t_heard t s <= t_now t) -> forall s, t_heard t' s <= t_now t'.
Proof.
  intros bcast me l. induction l as [|a l IH]; intros t t' H P; cbn [trun] in H; [injection H as <-; exact P|].
  destruct (texec bcast me t a) as [t1|] eqn:E; [|discriminate]. apply (IH _ _ H). intros s. destruct a as [a|d].
  - rewrite (now_do _ _ _ _ _ E). destruct (texec_do _ _ _ _ _ E) as (z & _ & _ & ->). cbn [set_z t_heard]. specialize (P s). destruct (heard_step t a s) as [->|(-> & _)]; lia.
  - cbn [texec] in E. destruct (0 <? d) eqn:D; [|discriminate]. injection E as <-. cbn [t_heard t_now]. specialize (P s). lia.
Qed.

(** ** A call does not wait longer than ten seconds *)
Definition shigh (c : Z) (i : nat) (x : sphase) (p : upc) (t : timed) : Prop :=
  match x with
  | YSub _ _ _ =>
      match p with
      | SubNew _ _ | SubReg _ _ _ => t_now t <= c
      | SubTime _ _ => t_now t <= c + 10000 /\ t_end t i <= c + 10000
      | SubWait _ _ => t_now t <= c + 10000 /\ t_end t i <= c + 10000 /\ t_due t i <= c + 10000
      | _ => t_now t <= c + 10000
      end
  | _ => t_now t <= c + 10000
  end.
Lemma shigh_hop : forall i t t' c x p b x' p', yhop i (Yt t) x p b x' p' -> own_clocks i t t' p b -> t_now t' = t_now t -> shigh c i x p t -> shigh c i x' p' t'.
Proof.
  intros i t t' c x p b x' p' H OC NW HI. destruct H; cbn [shigh own_clocks] in *; rewrite ?NW; try lia.
  assert (D : t_due t' i = t_due t i /\ t_end t' i = t_end t i) by (destruct H0 as [(ok & ->)| ->]; exact OC). destruct D as [D1 D2].
  destruct H; cbn [shigh] in *; try lia. destruct p; rewrite ?D1, ?D2, ?NW in *; auto.
Qed.
(** a call that has left Subscribe does not wait *)
Lemma left_idle : forall bcast me t d i q x p, zreach bcast me (t_z t) -> z_dead (t_z t) = false -> 0 < d -> idle_for bcast me t d -> scans i q t x p -> in_sub x = true.
Proof.
  intros bcast me t d i q x p RE LV P ID (N & Q & Np). destruct (zreach_y _ _ _ RE) as (seen & I). destruct (z_live _ LV) as (YD & _).
  destruct (in_sub x) eqn:IS; [reflexivity|]. exfalso. destruct (y_enabled bcast me _ _ i _ p q I YD N Np Q) as (a & w' & O & S & E); [congruence|].
  apply (ID 0 i); [lia|]. exists (ZY a). eexists. split; [exact O|]. cbn [texec]. replace (may_fire (later t 0) (ZY a)) with true.
  - cbn [later t_z]. unfold zexec, z_do_y. rewrite LV, S, E. reflexivity.
  - destruct a as [| | | | | | |[]]; try reflexivity. exfalso. unfold yexec in E. rewrite YD in E. cbn [y_inside uexec] in E. cbn in O. apply Nat.eqb_eq in O. subst. rewrite Np in E.
    pose proof (y_phs _ _ I i) as PO. unfold phase_ok in PO. rewrite N, Np in PO. destruct x; try discriminate Q; try discriminate IS; destruct p; try (destruct PO; fail); discriminate E.
Qed.
Lemma idle_scan : forall bcast me t d i q x p, zreach bcast me (t_z t) -> z_dead (t_z t) = false -> 0 < d -> idle_for bcast me t d ->
  (scanning (Yt t) i -> ~ SpecScan.stuck (Yt t)) -> scans i q t x p ->
  exists s st tx e, x = YSub q tx e /\ p = SubWait s st /\ t_now t + d <= t_due t i /\ queue (Ut t) s = [] /\ u_lock (Ut t) = None /\
    forall j pj, nth_error (u_thr (Ut t)) j = Some pj -> pub_key pj = None.
Proof.
  intros bcast me t d i q x p RE LV P ID NS SC. pose proof (left_idle _ _ _ _ _ _ _ _ RE LV P ID SC) as IS. destruct SC as (N & Q & Np).
  destruct x as [|q' tx e| | |]; try discriminate IS. injection Q as ->.
  destruct (y_idle _ _ _ _ RE LV P ID (NS (ex_intro _ q (ex_intro _ tx (ex_intro _ e N))))) as (LK & TH & _).
  destruct (zreach_y _ _ _ RE) as (seen & I). pose proof (y_phs _ _ I i) as PO. unfold phase_ok in PO. rewrite N, Np in PO. destruct PO as [_ PO].
  destruct (TH i p Np) as [->|(s & st & -> & QE & DU)]; [destruct PO|]. exists s, st, tx, e. split; [reflexivity|]. split; [reflexivity|]. split; [exact DU|]. split; [exact QE|]. split; [exact LK|].
  intros j pj Nj. destruct (TH j pj Nj) as [->|(? & ? & -> & _)]; reflexivity.
Qed.
Definition shighed (c : Z) (i : nat) (q : scan) (old : list sdone) (t : timed) : Prop :=
  (exists x p, scans i q t x p /\ shigh c i x p t /\ scans_of i t = old) \/ (exists f d, scans_of i t = d ++ f :: old /\ sd_req f = q).
Lemma never_stuck_tail : forall bcast me i old t a l t1, texec bcast me t a = Some t1 -> never_stuck bcast me i old t (a :: l) -> never_stuck bcast me i old t1 l.
Proof. intros bcast me i old t a l t1 E NS la lb ta -> R. apply (NS (a :: la) lb ta eq_refl). cbn [trun]. rewrite E. exact R. Qed.
Lemma never_stuck_now : forall bcast me i old t l, never_stuck bcast me i old t l -> scans_of i t = old -> scanning (Yt t) i -> ~ SpecScan.stuck (Yt t).
Proof. intros bcast me i old t l NS. exact (NS [] l t eq_refl eq_refl). Qed.
Lemma shighed_run : forall bcast me l t t' i q c old, zreach bcast me (t_z t) -> trun bcast me t l = Some t' -> prompt bcast me t l -> z_dead (t_z t') = false ->
  never_stuck bcast me i old t l -> shighed c i q old t -> shighed c i q old t'.
Proof.
  intros bcast me l. induction l as [|a l IH]; intros t t' i q c old RE H PR LV NS S; cbn [trun] in H; [injection H as <-; exact S|].
  destruct (texec bcast me t a) as [t1|] eqn:E; [|discriminate]. pose proof (live_back _ _ _ _ _ H LV) as LV1. cbn [SpecTime.prompt] in PR. destruct PR as [PA PR].
  apply (IH t1 t' i q c old (reach_step _ _ _ _ _ RE E) H (PR _ E) LV (never_stuck_tail _ _ _ _ _ _ _ _ E NS)).
  destruct S as [(x & p & SC & HI & RO)|(f & d & RO & FQ)].
  - destruct a as [a|d].
    + pose proof (now_do _ _ _ _ _ E) as NW. destruct (scans_step _ _ _ _ _ _ _ _ _ RE E SC) as [(SC' & DU & EN & RO' & _)|[(b & x' & p' & _ & H1 & SC' & OC & RO')|(b & f & _ & _ & FQ & RO')]].
      * left. exists x, p. split; [exact SC'|]. split; [|congruence]. destruct x; cbn [shigh] in *; try lia. destruct p; rewrite ?DU, ?EN, ?NW in *; auto.
      * left. exists x', p'. split; [exact SC'|]. split; [exact (shigh_hop _ _ _ _ _ _ _ _ _ H1 OC NW HI)|congruence].
      * right. exists f, []. split; [rewrite RO', RO; reflexivity|exact FQ].
    + assert (LV0 : z_dead (t_z t) = false) by (apply (live_back bcast me [TPass d] t t1); [cbn [trun]; rewrite E; reflexivity|exact LV1]).
      left. exists x, p. cbn [texec] in E. destruct (0 <? d) eqn:D; [|discriminate]. injection E as <-. split; [exact SC|]. split; [|exact RO].
      destruct (idle_scan bcast me t d i q x p RE LV0 ltac:(lia) (PA d eq_refl) (never_stuck_now _ _ _ _ _ _ NS RO) SC) as (s & st & tx & e & -> & -> & DU & _). cbn [shigh t_now t_due t_end] in *. lia.
  - right. destruct (scans_grow bcast me [a] t t1 i) as (d1 & RO1); [cbn [trun]; rewrite E; reflexivity|].
    exists f, (d1 ++ d). split; [rewrite RO1, RO, app_assoc; reflexivity|exact FQ].
Qed.
Lemma scan_in_time : forall bcast me l1 t0 i q t1 l2 t2, trun bcast me t_init l1 = Some t0 -> texec bcast me t0 (TDo (ZScan i q)) = Some t1 ->
  trun bcast me t1 l2 = Some t2 -> prompt bcast me t1 l2 -> z_dead (t_z t2) = false -> never_stuck bcast me i (scans_of i t0) t1 l2 ->
  10000 < t_now t2 - t_now t0 -> exists f d, scans_of i t2 = d ++ f :: scans_of i t0 /\ sd_req f = q.
Proof.
  intros bcast me l1 t0 i q t1 l2 t2 R1 E R2 PR LV NS LI. pose proof (reach_run _ _ _ _ _ (reach_init bcast me) R1) as RE.
  destruct (scan_starts _ _ _ _ _ _ E (live_back _ _ _ _ _ R2 LV)) as (SC & NW & RO1).
  assert (S : shighed (t_now t0) i q (scans_of i t0) t1).
  { left. do 2 eexists. split; [exact SC|]. split; [cbn [shigh]; lia|exact RO1]. }
  destruct (shighed_run _ _ _ _ _ _ _ _ _ (reach_step _ _ _ _ _ RE E) R2 PR LV NS S) as [(x & p & (N & Q & Np) & HI & _)|K]; [|exact K]. exfalso.
  destruct x; try discriminate Q; cbn [shigh] in HI; try lia. destruct p; lia.
Qed.
