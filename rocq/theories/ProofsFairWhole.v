(** * Fair executions of the whole client *)
Require Import List ZArith Bool Lia.
From Verif Require Import ModelClient ModelSystem ModelScan ModelWhole SpecSystem SpecScan SpecWhole SpecFair.
From Verif Require ModelTsm SpecTsm ProofsTsm ProofsTsmProps ModelUtsm ProofsUtsm.
From Verif Require Import ProofsSystem ProofsSystemProps ProofsSystemLive ProofsScan ProofsWhole ProofsFair.
Import ListNotations.
Import ModelTsm ModelUtsm ProofsTsm ProofsUtsm.
Open Scope Z_scope.

(** ** Discovery: steps of others *)
Lemma publish_other : forall w j ps b w' i, y_publish w j ps b = Some w' -> i <> j ->
  nth_error (y_ph w') i = nth_error (y_ph w) i /\ nth_error (u_thr (y_u w')) i = nth_error (u_thr (y_u w)) i.
Proof.
  intros w j ps b w' i H D. unfold y_publish in H. destruct ps as [|[k x] ps].
  - injection H as <-. destruct b; cbn; rewrite upd_other by congruence; auto.
  - destruct (uexec _ _) as [u|] eqn:X; [|discriminate]. injection H as <-. cbn [y_ph y_u]. uexec_cases X. ufields. rewrite !upd_other by congruence. auto.
Qed.
Lemma y_other : forall bcast me w a w' i, yexec bcast me w a = Some w' -> y_step a = true -> y_of i a = false ->
  nth_error (y_ph w') i = nth_error (y_ph w) i /\ nth_error (u_thr (y_u w')) i = nth_error (u_thr (y_u w)) i.
Proof.
  intros bcast me w a w' i H S O. unfold yexec in H. destruct (y_dead w); [discriminate|].
  destruct a as [| | |j ok|j|j|j|a]; try discriminate S; cbn [y_of] in O; try (apply Nat.eqb_neq in O).
  - destruct (nth_error (y_ph w) j) as [[|q [] ?|q s st [] ?|q s st [] ?|]|]; try discriminate H; injection H as <-; cbn; rewrite upd_other by congruence; auto.
  - destruct (nth_error (y_ph w) j) as [[|q [] ?|q s st [] ?|q s st [] ?|]|]; try discriminate H; injection H as <-; cbn; rewrite upd_other by congruence; auto.
  - destruct (nth_error (y_ph w) j) as [[|q t ?|q s st t ?|q s st t ?|]|]; try discriminate H. destruct (_ && _); injection H as <-; cbn; rewrite upd_other by congruence; auto.
  - destruct (nth_error (y_ph w) j) as [[|q t ?|q s st t ?|q s st [] ?|]|]; try discriminate H. injection H as <-; cbn; rewrite upd_other by congruence; auto.
  - destruct (y_inside a) eqn:IN; [|discriminate]. destruct (uexec (y_u w) a) as [u|] eqn:X; [|discriminate].
    assert (A : exists j, j <> i /\ (exists p, u_thr u = upd (u_thr (y_u w)) j p) /\
        (u_log u = u_log (y_u w) \/ exists e, u_log u = e :: u_log (y_u w) /\ match e with UPubRet k | URet k _ _ => k = j | _ => True end)).
    { destruct a as [| |j|j|j]; try discriminate IN; apply Nat.eqb_neq in O; exists j; (split; [exact O|]); uexec_cases X; ufields;
        (split; [eexists; reflexivity|]); try (left; reflexivity); right; eexists; split; reflexivity. }
    destruct A as (j & D & (p & TH) & LG). assert (T0 : nth_error (u_thr u) i = nth_error (u_thr (y_u w)) i) by (rewrite TH; apply upd_other; congruence).
    destruct (Nat.eqb _ _) eqn:LE; [injection H as <-; cbn; auto|].
    destruct LG as [LG|(e & LG & K)]; [rewrite LG, Nat.eqb_refl in LE; discriminate|]. rewrite LG in H. destruct e as [? ? ?|k|? ? ? ?|k s st]; cbn [y_returned] in H.
    + injection H as <-. auto.
    + subst k. cbn [y_setu y_ph] in H. destruct (nth_error (y_ph w) j) as [[|q t ?|q s st t ?|q s st t ?|[|? ?] ?]|]; try (injection H as <-; auto; fail).
      destruct (publish_other _ _ _ _ _ i H) as [P1 P2]; [congruence|]. rewrite P1, P2. auto.
    + injection H as <-. auto.
    + subst k. cbn [y_setu y_ph] in H. destruct (nth_error (y_ph w) j) as [[|q t ?|q ? ? t ?|q ? ? t ?|? ?]|]; injection H as <-; cbn; try rewrite upd_other by congruence; auto.
Qed.
Lemma y_free_step : forall bcast me seen w a w' i, yinv seen w -> yexec bcast me w a = Some w' -> y_step a = true -> nth_error (y_ph w) i = Some YFree ->
  y_of i a = false.
Proof.
  intros bcast me seen w a w' i I H S N. destruct (y_of i a) eqn:O; [|reflexivity]. exfalso.
  pose proof (free_idle _ _ _ I N) as T. unfold yexec in H. destruct (y_dead w); [discriminate|].
  destruct a as [| | |j ok|j|j|j|a]; try discriminate S; cbn [y_of] in O; try (apply Nat.eqb_eq in O; subst j; rewrite N in H; discriminate H).
  destruct (y_inside a) eqn:IN; [|discriminate]. destruct (uexec (y_u w) a) as [u|] eqn:X; [|discriminate].
  destruct a; try discriminate O; apply Nat.eqb_eq in O; subst; cbn [uexec] in X; rewrite T in X; discriminate X.
Qed.

Lemma wstep_length : forall me w a w', wexec me w a = Some w' -> w_step a = true -> length (w_ph w') = length (w_ph w).
Proof.
  intros me w a w' E S. destruct a as [| | |j ok|j|b]; try discriminate S.
  - unfold wexec in E. destruct (w_dead w); [discriminate|]. destruct (nth_error (w_ph w) j) as [[| |? ? ? ? ? [r|d k]| | | |]|]; try discriminate E.
    destruct ok; [destruct (exec _ _); [|discriminate]|destruct (sy_crash _); [discriminate|]]; injection E as <-; cbn; apply upd_length.
  - unfold wexec in E. destruct (w_dead w); [discriminate|]. destruct (nth_error (w_ph w) j) as [[| |? ? ? ? ? [r|d k]| | | |]|]; try discriminate E.
    destruct r; try discriminate E; try (destruct (exec _ _); [|discriminate]); try (destruct (sy_crash _); [discriminate|]); injection E as <-; cbn; auto; apply upd_length.
  - unfold wexec in E. destruct (w_dead w); [discriminate|]. destruct (inside b); [|discriminate]. destruct (exec _ _) as [s|]; [|discriminate].
    assert (RT : forall e, length (w_ph (returned me (with_tsm w s) e)) = length (w_ph w)).
    { intros e. destruct e; cbn [returned with_tsm w_ph]; unfold handled, received;
          repeat match goal with |- context [match ?x with _ => _ end] => destruct x end; cbn; auto; rewrite ?upd_length; auto. }
    destruct (Nat.eqb _ _); [injection E as <-; reflexivity|]. destruct (sy_log s); injection E as <-; [reflexivity|apply RT].
Qed.

(** ** Reached states *)
Lemma y_reached : forall bcast me l w, yrun bcast me y_init l = Some w -> exists seen, yinv seen w.
Proof.
  intros bcast me l. induction l as [|a l IH] using rev_ind; intros w H; [injection H as <-; eexists; exact y_init_inv|].
  rewrite yrun_app in H. destruct (yrun bcast me y_init l) as [w0|] eqn:R; [|discriminate]. cbn [yrun] in H.
  destruct (yexec bcast me w0 a) as [w1|] eqn:E; [|discriminate]. injection H as <-. destruct (IH w0 eq_refl) as (seen & I).
  eexists. exact (yexec_inv _ _ _ _ _ _ I E).
Qed.
Lemma z_live : forall z, z_dead z = false -> y_dead (z_y z) = false /\ w_dead (z_w z) = false /\ sy_crash (w_tsm (z_w z)) = false.
Proof. intros z H. unfold z_dead in H. apply orb_false_iff in H. destruct H as [H ?]. apply orb_false_iff in H. destruct H. auto. Qed.

(** ** One step of the whole client *)
Definition zreach (bcast : address) (me : option address) (z : whole) : Prop := exists l, zrun bcast me z_init l = Some z.
Lemma zreach_step : forall bcast me z act z', zreach bcast me z -> zexec bcast me z act = Some z' -> zreach bcast me z'.
Proof. intros bcast me z act z' (l & R) E. exists (l ++ [act]). rewrite zrun_app, R. cbn [zrun]. rewrite E. reflexivity. Qed.
Lemma zexec_live : forall bcast me z act z', zexec bcast me z act = Some z' -> z_dead z = false.
Proof. intros bcast me z act z' E. unfold zexec in E. destruct (z_dead z); [discriminate|reflexivity]. Qed.
Lemma zreach_up : forall bcast me z, zreach bcast me z -> z_dead z = false -> up me (z_w z).
Proof.
  intros bcast me z (l & R) L. destruct (whole_requests _ _ _ _ R) as (lw & RW & _). destruct (z_live _ L) as (_ & D & C). split; [eauto|auto].
Qed.
Lemma zreach_y : forall bcast me z, zreach bcast me z -> exists seen, yinv seen (z_y z).
Proof. intros bcast me z (l & R). destruct (whole_scans _ _ _ _ R) as (ly & RY & _). exact (y_reached _ _ _ _ RY). Qed.
Lemma free_parts : forall z i, z_free z i = true -> nth_error (w_ph (z_w z)) i = Some NFree /\ nth_error (y_ph (z_y z)) i = Some YFree /\ nth_error (z_rest z) i = Some None.
Proof.
  intros z i H. unfold z_free in H. destruct (nth_error (w_ph (z_w z)) i) as [[]|]; try discriminate H.
  destruct (nth_error (y_ph (z_y z)) i) as [[]|]; try discriminate H. destruct (nth_error (z_rest z) i) as [[]|]; try discriminate H. auto.
Qed.
Definition apart (z : whole) : Prop := forall i x, nth_error (w_ph (z_w z)) i = Some x -> x <> NFree -> nth_error (y_ph (z_y z)) i = Some YFree.
Lemma apart_step : forall bcast me z act z', zreach bcast me z -> zexec bcast me z act = Some z' -> apart z -> apart z'.
Proof.
  intros bcast me z act z' RE E IH i x N NF. pose proof (zexec_live _ _ _ _ _ E) as LV. pose proof (zreach_up _ _ _ RE LV) as U. destruct (zreach_y _ _ _ RE) as (seen & Y).
  revert N. unfold zexec in E. rewrite LV in E. unfold z_do_w, z_do_y in E.
  destruct act as [|j rq|j q|j src b|j|a|a].
  - destruct (wexec me (z_w z) WSpawn) as [w|] eqn:EW; [|discriminate]. destruct (yexec bcast me (z_y z) YSpawn) as [y|] eqn:EY; [|discriminate]. injection E as <-. cbn [z_w z_y].
    unfold wexec in EW. destruct (w_dead _); [discriminate|]. destruct (exec _ _) as [s|]; [|discriminate]. injection EW as <-. cbn [w_ph]. intros N.
    destruct (Nat.lt_ge_cases i (length (w_ph (z_w z)))) as [L|L].
    + rewrite nth_error_app1 in N by exact L. specialize (IH i x N NF).
      unfold yexec in EY. destruct (y_dead _); [discriminate|]. destruct (uexec _ _); [|discriminate]. injection EY as <-. cbn [y_ph]. rewrite nth_error_app1; [exact IH|apply nth_error_Some; congruence].
    + rewrite nth_error_app2 in N by exact L. destruct (i - length _)%nat as [|[|]]; cbn in N; try discriminate N. injection N as <-. destruct (NF eq_refl).
  - destruct (z_free z j) eqn:FR; [|discriminate]. destruct (wexec me (z_w z) (WCall j rq)) as [w|] eqn:EW; [|discriminate]. injection E as <-. cbn [z_w z_y]. intros N.
    destruct (free_parts _ _ FR) as (F1 & F2 & _). destruct (Nat.eq_dec j i) as [->|D]; [exact F2|].
    unfold wexec in EW. destruct (w_dead _); [discriminate|]. rewrite F1 in EW. destruct (exec _ _); [|discriminate]. injection EW as <-. cbn in N. rewrite upd_other in N by exact D. eapply IH; eauto.
  - destruct (z_free z j) eqn:FR; [|discriminate]. destruct (yexec bcast me (z_y z) (YCall j q)) as [y|] eqn:EY; [|discriminate]. injection E as <-. cbn [z_w z_y]. intros N.
    destruct (free_parts _ _ FR) as (F1 & F2 & _). destruct (Nat.eq_dec j i) as [->|D]; [congruence|]. specialize (IH i x N NF).
    unfold yexec in EY. destruct (y_dead _); [discriminate|]. rewrite F2 in EY. destruct (scan_frame _ _ _); [|injection EY as <-; exact IH].
    destruct (uexec _ _); [|discriminate]. injection EY as <-. cbn. rewrite upd_other by exact D. exact IH.
  - destruct (z_free z j) eqn:FR; [|discriminate]. destruct (yexec bcast me (z_y z) (YArrive j src b false)) as [y|] eqn:EY; [|discriminate]. injection E as <-. cbn [z_w z_y]. intros N.
    destruct (free_parts _ _ FR) as (F1 & F2 & _). destruct (Nat.eq_dec j i) as [->|D]; [congruence|]. specialize (IH i x N NF).
    unfold yexec in EY. destruct (y_dead _); [discriminate|]. rewrite F2 in EY. destruct (handleMsg _ _ _) as [eff pn]. destruct (publish_other _ _ _ _ _ i EY) as [-> _]; [congruence|exact IH].
  - destruct (nth_error (y_ph (z_y z)) j) as [[]|] eqn:YJ; try discriminate E. destruct (nth_error (z_rest z) j) as [[[src b]|]|]; try discriminate E.
    destruct (wexec me (z_w z) (WArrive j src b)) as [w|] eqn:EW; [|discriminate]. injection E as <-. cbn [z_w z_y]. intros N.
    destruct (Nat.eq_dec j i) as [->|D]; [exact YJ|].
    assert (N0 : exists x0, nth_error (w_ph (z_w z)) i = Some x0).
    { destruct (nth_error (w_ph (z_w z)) i) eqn:N0; [eauto|]. exfalso. revert N N0 EW. clear. intros N N0 EW. unfold wexec in EW. destruct (w_dead _); [discriminate|].
      destruct (nth_error (w_ph (z_w z)) j) as [[]|]; try discriminate EW. destruct (handleMsg _ _ _) as [eff pn]. destruct (delivery eff) as [[id' pl]|].
      - destruct (exec _ _); [|discriminate]. injection EW as <-. cbn in N. apply nth_error_None in N0. assert (i < length (upd (w_ph (z_w z)) j (NHandle (length (w_in (z_w z))))))%nat by (apply nth_error_Some; congruence). rewrite upd_length in H. lia.
      - destruct (sy_crash _); [discriminate|]. injection EW as <-. destruct pn; cbn in N; congruence. }
    destruct N0 as (x0 & N0). destruct (other_step' _ _ _ _ i x0 U EW N0) as (K & _); [exact D|reflexivity|]. rewrite K in N. injection N as <-. eapply IH; eauto.
  - destruct (w_step a) eqn:S; [|discriminate]. destruct (wexec me (z_w z) a) as [w|] eqn:EW; [|discriminate]. injection E as <-. cbn [z_w z_y]. intros N.
    assert (LN : nth_error (w_ph (z_w z)) i <> None).
    { intros N0. apply nth_error_None in N0. assert (i < length (w_ph w))%nat by (apply nth_error_Some; congruence).
      rewrite (wstep_length _ _ _ _ EW S) in H. lia. }
    destruct (nth_error (w_ph (z_w z)) i) as [x0|] eqn:N0; [|congruence]. apply (IH i x0 N0). intros ->.
    destruct (free_step _ _ _ _ _ U EW S N0) as [_ K]. rewrite K in N. injection N as <-. destruct (NF eq_refl).
  - destruct (y_step a) eqn:S; [|discriminate]. destruct (yexec bcast me (z_y z) a) as [y|] eqn:EY; [|discriminate]. injection E as <-. cbn [z_w z_y]. intros N.
    specialize (IH i x N NF). destruct (y_other _ _ _ _ _ i EY S (y_free_step _ _ _ _ _ _ _ Y EY S IH)) as [-> _]. exact IH.
Qed.

Lemma zreach_apart : forall bcast me z, zreach bcast me z -> apart z.
Proof.
  intros bcast me z (l & R). revert z R. induction l as [|a l IH] using rev_ind; intros z R.
  - injection R as <-. intros i x N. cbn in N. destruct i; discriminate N.
  - rewrite zrun_app in R. destruct (zrun bcast me z_init l) as [z1|] eqn:R1; [|discriminate]. cbn [zrun] in R. destruct (zexec bcast me z1 a) as [z2|] eqn:E; [|discriminate].
    injection R as <-. exact (apart_step _ _ _ _ _ (ex_intro _ l R1) E (IH _ eq_refl)).
Qed.

Lemma in_call : forall x rq, req_of x = Some rq -> x <> NFree.
Proof. intros x rq H ->. discriminate H. Qed.
Lemma z_own : forall bcast me z act z' i x p rq, zreach bcast me z -> zexec bcast me z act = Some z' -> z_dead z' = false ->
  nth_error (w_ph (z_w z)) i = Some x -> req_of x = Some rq -> nth_error (sy_thr (w_tsm (z_w z))) i = Some p ->
  z_of i act = true -> progress (z_w z) (z_w z') i rq (left x p).
Proof.
  intros bcast me z act z' i x p rq RE E LV' N Q Np O. pose proof (zexec_live _ _ _ _ _ E) as LV. pose proof (zreach_up _ _ _ RE LV) as U.
  pose proof (zreach_up _ _ _ (zreach_step _ _ _ _ _ RE E) LV') as U'. pose proof (zreach_apart _ _ _ RE i x N (in_call _ _ Q)) as Y. destruct (zreach_y _ _ _ RE) as (seen & YI).
  unfold zexec in E. rewrite LV in E. unfold z_do_w, z_do_y in E.
  destruct act as [|j rq'|j q|j src b|j|a|a]; try discriminate O; cbn [z_of] in O.
  - apply Nat.eqb_eq in O. subst j. destruct (nth_error (y_ph (z_y z)) i) as [[]|]; try discriminate E. destruct (nth_error (z_rest z) i) as [[[src b]|]|]; try discriminate E.
    exfalso. unfold wexec in E. destruct (w_dead _); [discriminate|]. rewrite N in E. destruct x; try discriminate E; discriminate Q.
  - destruct (w_step a) eqn:S; [|discriminate]. destruct (wexec me (z_w z) a) as [w|] eqn:EW; [|discriminate]. injection E as E. rewrite <- E in U'. rewrite <- E. cbn [z_w] in *.
    eapply own_step; eauto.
  - destruct (y_step a) eqn:S; [|discriminate]. destruct (yexec bcast me (z_y z) a) as [y|] eqn:EY; [|discriminate].
    rewrite (y_free_step _ _ _ _ _ _ _ YI EY S Y) in O. discriminate O.
Qed.
Lemma z_other : forall bcast me z act z' i x rq, zreach bcast me z -> zexec bcast me z act = Some z' ->
  nth_error (w_ph (z_w z)) i = Some x -> req_of x = Some rq -> z_of i act = false ->
  nth_error (w_ph (z_w z')) i = Some x /\ nth_error (sy_thr (w_tsm (z_w z'))) i = nth_error (sy_thr (w_tsm (z_w z))) i /\
  (w_done (z_w z') = w_done (z_w z) \/ exists f, w_done (z_w z') = f :: w_done (z_w z) /\ fi_thread f <> i).
Proof.
  intros bcast me z act z' i x rq RE E N Q O. pose proof (zexec_live _ _ _ _ _ E) as LV. pose proof (zreach_up _ _ _ RE LV) as U.
  unfold zexec in E. rewrite LV in E. unfold z_do_w, z_do_y in E.
  destruct act as [|j rq'|j q|j src b|j|a|a]; cbn [z_of] in O.
  - destruct (wexec me (z_w z) WSpawn) as [w|] eqn:EW; [|discriminate]. destruct (yexec _ _ _ _) as [y|]; [|discriminate]. injection E as <-. cbn [z_w]. eapply other_step; eauto.
  - destruct (z_free _ _); [|discriminate]. destruct (wexec me _ _) as [w|] eqn:EW; [|discriminate]. injection E as <-. cbn [z_w]. eapply other_step; eauto.
  - destruct (z_free _ _); [|discriminate]. destruct (yexec _ _ _ _) as [y|]; [|discriminate]. injection E as <-. cbn [z_w]. auto.
  - destruct (z_free _ _); [|discriminate]. destruct (yexec _ _ _ _) as [y|]; [|discriminate]. injection E as <-. cbn [z_w]. auto.
  - destruct (nth_error (y_ph (z_y z)) j) as [[]|]; try discriminate E. destruct (nth_error (z_rest z) j) as [[[src b]|]|]; try discriminate E.
    destruct (wexec me _ _) as [w|] eqn:EW; [|discriminate]. injection E as <-. cbn [z_w]. eapply other_step; eauto.
  - destruct (w_step a) eqn:S; [|discriminate]. destruct (wexec me (z_w z) a) as [w|] eqn:EW; [|discriminate]. injection E as <-. cbn [z_w]. eapply other_step; eauto.
  - destruct (y_step a) eqn:S; [|discriminate]. destruct (yexec _ _ _ _) as [y|]; [|discriminate]. injection E as <-. cbn [z_w]. auto.
Qed.
Lemma z_lock : forall bcast me z act z' j, zreach bcast me z -> zexec bcast me z act = Some z' -> z_dead z' = false -> sy_lock (w_tsm (z_w z)) = Some j -> sy_lock (w_tsm (z_w z')) = Some j \/ sy_lock (w_tsm (z_w z')) = None.
Proof.
  intros bcast me z act z' j RE E LV' L. pose proof (zexec_live _ _ _ _ _ E) as LV. pose proof (zreach_up _ _ _ RE LV) as U.
  pose proof (zreach_up _ _ _ (zreach_step _ _ _ _ _ RE E) LV') as U'. unfold zexec in E. rewrite LV in E. unfold z_do_w, z_do_y in E.
  destruct act as [|k rq'|k q|k src b|k|a|a].
  - destruct (wexec me (z_w z) WSpawn) as [w|] eqn:EW; [|discriminate]. destruct (yexec _ _ _ _) as [y|]; [|discriminate]. injection E as E. rewrite <- E in U'. rewrite <- E. exact (holder_step _ _ _ _ _ U U' EW L).
  - destruct (z_free _ _); [|discriminate]. destruct (wexec me _ _) as [w|] eqn:EW; [|discriminate]. injection E as E. rewrite <- E in U'. rewrite <- E. exact (holder_step _ _ _ _ _ U U' EW L).
  - destruct (z_free _ _); [|discriminate]. destruct (yexec _ _ _ _) as [y|]; [|discriminate]. injection E as <-. cbn [z_w]. auto.
  - destruct (z_free _ _); [|discriminate]. destruct (yexec _ _ _ _) as [y|]; [|discriminate]. injection E as <-. cbn [z_w]. auto.
  - destruct (nth_error (y_ph (z_y z)) k) as [[]|]; try discriminate E. destruct (nth_error (z_rest z) k) as [[[src b]|]|]; try discriminate E.
    destruct (wexec me _ _) as [w|] eqn:EW; [|discriminate]. injection E as E. rewrite <- E in U'. rewrite <- E. exact (holder_step _ _ _ _ _ U U' EW L).
  - destruct (w_step a) eqn:S; [|discriminate]. destruct (wexec me (z_w z) a) as [w|] eqn:EW; [|discriminate]. injection E as E. rewrite <- E in U'. rewrite <- E. exact (holder_step _ _ _ _ _ U U' EW L).
  - destruct (y_step a) eqn:S; [|discriminate]. destruct (yexec _ _ _ _) as [y|]; [|discriminate]. injection E as <-. cbn [z_w]. auto.
Qed.

Section Execution.
Context (bcast : address) (me : option address) (zs : nat -> whole) (az : nat -> zaction) (EX : execution bcast me zs az).

Lemma ex_run : forall n, exists l, zrun bcast me z_init l = Some (zs n).
Proof.
  induction n as [|n (l & R)]; [exists []; destruct EX as [-> _]; reflexivity|].
  exists (l ++ [az n]). rewrite zrun_app, R. cbn [zrun]. destruct EX as [_ E]. rewrite (E n). reflexivity.
Qed.
Lemma ex_live : forall n, z_dead (zs n) = false.
Proof. intros n. destruct EX as [_ E]. specialize (E n). unfold zexec in E. destruct (z_dead (zs n)); [discriminate|reflexivity]. Qed.
Lemma ex_up : forall n, up me (z_w (zs n)).
Proof.
  intros n. destruct (ex_run n) as (l & R). destruct (whole_requests _ _ _ _ R) as (lw & RW & _).
  destruct (z_live _ (ex_live n)) as (_ & D & C). split; [eauto|auto].
Qed.
Lemma ex_y : forall n, exists seen, yinv seen (z_y (zs n)).
Proof. intros n. destruct (ex_run n) as (l & R). destruct (whole_scans _ _ _ _ R) as (ly & RY & _). exact (y_reached _ _ _ _ RY). Qed.
Lemma ex_apart : forall n i x, nth_error (w_ph (z_w (zs n))) i = Some x -> x <> NFree -> nth_error (y_ph (z_y (zs n))) i = Some YFree.
Proof. intros n. exact (zreach_apart _ _ _ (ex_run n)). Qed.
Lemma ex_own : forall n i x p rq, nth_error (w_ph (z_w (zs n))) i = Some x -> req_of x = Some rq -> nth_error (sy_thr (w_tsm (z_w (zs n)))) i = Some p ->
  z_of i (az n) = true -> progress (z_w (zs n)) (z_w (zs (S n))) i rq (left x p).
Proof. intros n i x p rq. destruct EX as [_ E]. exact (z_own _ _ _ _ _ i x p rq (ex_run n) (E n) (ex_live (S n))). Qed.
Lemma ex_other : forall n i x rq, nth_error (w_ph (z_w (zs n))) i = Some x -> req_of x = Some rq -> z_of i (az n) = false ->
  nth_error (w_ph (z_w (zs (S n)))) i = Some x /\ nth_error (sy_thr (w_tsm (z_w (zs (S n))))) i = nth_error (sy_thr (w_tsm (z_w (zs n)))) i /\
  (w_done (z_w (zs (S n))) = w_done (z_w (zs n)) \/ exists f, w_done (z_w (zs (S n))) = f :: w_done (z_w (zs n)) /\ fi_thread f <> i).
Proof. intros n i x rq. destruct EX as [_ E]. exact (z_other _ _ _ _ _ i x rq (ex_run n) (E n)). Qed.
Lemma ex_lock : forall n j, sy_lock (w_tsm (z_w (zs n))) = Some j -> sy_lock (w_tsm (z_w (zs (S n)))) = Some j \/ sy_lock (w_tsm (z_w (zs (S n)))) = None.
Proof. intros n j. destruct EX as [_ E]. exact (z_lock _ _ _ _ _ j (ex_run n) (E n) (ex_live (S n))). Qed.
Lemma ex_enabled : forall n i x rq, nth_error (w_ph (z_w (zs n))) i = Some x -> req_of x = Some rq -> looping x = false ->
  sy_lock (w_tsm (z_w (zs n))) = None \/ sy_lock (w_tsm (z_w (zs n))) = Some i -> can_move bcast me (zs n) i.
Proof.
  intros n i x rq N Q L K. destruct (enabled _ _ _ _ _ (ex_up n) N Q L K) as (a & w' & O & S & E).
  exists (ZW a), (mkZ w' (z_y (zs n)) (z_rest (zs n))). split; [exact O|]. unfold zexec, z_do_w. rewrite (ex_live n), S, E. reflexivity.
Qed.

(** ** Between the steps of one goroutine *)
Definition others (i : nat) (d : list finished) : Prop := forall g, In g d -> fi_thread g <> i.
Lemma stay : forall i x rq n m, (n <= m)%nat -> nth_error (w_ph (z_w (zs n))) i = Some x -> req_of x = Some rq ->
  (forall k, (n <= k < m)%nat -> z_of i (az k) = false) ->
  nth_error (w_ph (z_w (zs m))) i = Some x /\ nth_error (sy_thr (w_tsm (z_w (zs m)))) i = nth_error (sy_thr (w_tsm (z_w (zs n)))) i /\
  exists d, w_done (z_w (zs m)) = d ++ w_done (z_w (zs n)) /\ others i d.
Proof.
  intros i x rq n m H N Q. induction H as [|m H IH]; intros K.
  - split; [exact N|]. split; [reflexivity|]. exists []. split; [reflexivity|intros g []].
  - destruct IH as (A & B & d & D & OD); [intros k Hk; apply K; lia|]. destruct (ex_other m i x rq A Q) as (A' & B' & D'); [apply K; lia|].
    split; [exact A'|]. split; [congruence|]. destruct D' as [D'|(f & D' & F)]; [exists d; split; [congruence|exact OD]|].
    exists (f :: d). split; [rewrite D', D; reflexivity|]. intros g [<-|G]; auto.
Qed.
Lemma first_own : forall i n m, (n <= m)%nat -> z_of i (az m) = true -> exists k, (n <= k <= m)%nat /\ z_of i (az k) = true /\ forall k', (n <= k' < k)%nat -> z_of i (az k') = false.
Proof.
  intros i n m H. remember (m - n)%nat as d eqn:Ed. revert n m H Ed. induction d as [|d IH]; intros n m H Ed T.
  - exists n. assert (m = n) by lia. subst m. split; [lia|]. split; [exact T|lia].
  - destruct (z_of i (az n)) eqn:Z; [exists n; split; [lia|]; split; [exact Z|lia]|].
    destruct (IH (S n) m) as (k & K1 & K2 & K3); [lia|lia|exact T|]. exists k. split; [lia|]. split; [exact K2|].
    intros k' Hk. destruct (Nat.eq_dec k' n) as [->|D]; [exact Z|]. apply K3. lia.
Qed.
Lemma held_or_freed : forall j n m, (n <= m)%nat -> sy_lock (w_tsm (z_w (zs n))) = Some j ->
  sy_lock (w_tsm (z_w (zs m))) = Some j \/ exists k, (n <= k <= m)%nat /\ sy_lock (w_tsm (z_w (zs k))) = None.
Proof.
  intros j n m H L. induction H as [|m H IH]; [auto|]. destruct IH as [IH|(k & K1 & K2)].
  - destruct (ex_lock m j IH) as [E|E]; [auto|]. right. exists (S m). split; [lia|exact E].
  - right. exists k. split; [lia|exact K2].
Qed.

(** ** Counting the steps of a call *)
Lemma own_none : forall i n len, own_steps i az n len = 0%nat -> forall k, (n <= k < n + len)%nat -> z_of i (az k) = false.
Proof.
  intros i n len H k Hk. destruct (z_of i (az k)) eqn:Z; [|reflexivity]. exfalso. unfold own_steps in H.
  assert (In k (filter (fun k => z_of i (az k)) (seq n len))) by (apply filter_In; split; [apply in_seq; lia|exact Z]). destruct (filter _ _); [destruct H0|discriminate].
Qed.
Lemma own_split : forall i n a b, own_steps i az n (a + b) = (own_steps i az n a + own_steps i az (n + a) b)%nat.
Proof. intros i n a b. unfold own_steps. rewrite seq_app, filter_app, app_length. reflexivity. Qed.
Lemma bounded : forall N n len i x p rq, nth_error (w_ph (z_w (zs n))) i = Some x -> req_of x = Some rq -> nth_error (sy_thr (w_tsm (z_w (zs n)))) i = Some p ->
  (left x p <= N)%nat -> (N <= own_steps i az n len)%nat ->
  exists m f, (n < m <= n + len)%nat /\ first_done i f (w_done (z_w (zs n))) (w_done (z_w (zs m))) /\ fi_req f = rq.
Proof.
  induction N as [|N IH]; intros n len i x p rq Nx Q Np LE C.
  { pose proof (left_pos _ _ _ _ _ _ (ex_up n) Nx Q Np). lia. }
  assert (K : exists k, (n <= k < n + len)%nat /\ z_of i (az k) = true).
  { unfold own_steps in C. destruct (filter (fun k => z_of i (az k)) (seq n len)) as [|k t] eqn:F; [cbn in C; lia|].
    assert (In k (filter (fun k => z_of i (az k)) (seq n len))) as G by (rewrite F; left; reflexivity). apply filter_In in G. destruct G as [G1 G2]. apply in_seq in G1. eauto. }
  destruct K as (k0 & H0 & O0). destruct (first_own i n k0 (proj1 H0) O0) as (k & K1 & K2 & K3).
  destruct (stay i _ rq n k (proj1 K1) Nx Q K3) as (A & B & d & D & OD). rewrite Np in B.
  destruct (ex_own k i _ p rq A Q B K2) as [(f & F1 & F2 & F3 & _)|(x' & p' & P1 & P2 & P3 & P4 & P5)].
  - exists (S k), f. split; [lia|]. split; [|exact F3]. exists d. split; [rewrite F1, D; reflexivity|]. auto.
  - assert (CC : own_steps i az n len = S (own_steps i az (S k) (len - (S k - n)))).
    { replace len with ((k - n) + (1 + (len - (S k - n))))%nat at 1 by lia. rewrite own_split, (own_split i (n + (k - n)) 1).
      replace (n + (k - n))%nat with k by lia. replace (k + 1)%nat with (S k) by lia. replace (own_steps i az k 1) with 1%nat by (unfold own_steps; cbn [seq filter]; rewrite K2; reflexivity).
      replace (own_steps i az n (k - n)) with 0%nat; [lia|]. symmetry. unfold own_steps.
      destruct (filter (fun k => z_of i (az k)) (seq n (k - n))) as [|k1 t] eqn:F; [reflexivity|].
      assert (In k1 (filter (fun k => z_of i (az k)) (seq n (k - n)))) as G by (rewrite F; left; reflexivity). apply filter_In in G. destruct G as [G1 G2]. apply in_seq in G1.
      rewrite K3 in G2 by lia. discriminate G2. }
    destruct (IH (S k) (len - (S k - n))%nat i x' p' rq P1 P2 P3) as (m' & f & M & (d' & D1 & D2 & D3) & FR); [lia|lia|].
    exists m', f. split; [lia|]. split; [|exact FR]. exists (d' ++ d). split; [rewrite D1, P5, D, app_assoc; reflexivity|]. split; [exact D2|].
    intros g G. apply in_app_or in G. destruct G; auto.
Qed.

Context (FAIR : fair bcast me zs az).
Lemma released : forall N n j x p, sy_lock (w_tsm (z_w (zs n))) = Some j -> nth_error (w_ph (z_w (zs n))) j = Some x -> nth_error (sy_thr (w_tsm (z_w (zs n)))) j = Some p ->
  (left x p <= N)%nat -> exists m, (n <= m)%nat /\ sy_lock (w_tsm (z_w (zs m))) = None.
Proof.
  induction N as [|N IH]; intros n j x p L Nx Np LE; destruct (holder _ _ _ (ex_up n) L) as (rq & id & g & h & tr & r & p0 & o & Nx' & _); rewrite Nx in Nx'; injection Nx' as ->.
  { pose proof (left_pos _ _ _ _ _ _ (ex_up n) Nx eq_refl Np). lia. }
  destruct (FAIR j n) as (m & H & [O|B]).
  - destruct (first_own j n m H O) as (k & K1 & K2 & K3). destruct (held_or_freed j n k) as [LK|(q & Q1 & Q2)]; [lia|exact L| |exists q; split; [lia|exact Q2]].
    destruct (stay j _ rq n k (proj1 K1) Nx eq_refl K3) as (A & B & _). rewrite Np in B.
    destruct (ex_lock k j LK) as [LS|LS]; [|exists (S k); split; [lia|exact LS]].
    destruct (ex_own k j _ p rq A eq_refl B K2) as [(f & _ & _ & _ & F)|(x' & p' & P1 & P2 & P3 & P4 & _)].
    + destruct (holder _ _ _ (ex_up (S k)) LS) as (? & ? & ? & ? & ? & ? & ? & ? & F' & _). congruence.
    + destruct (IH (S k) j x' p' LS P1 P3) as (m' & M1 & M2); [lia|]. exists m'. split; [lia|exact M2].
  - destruct (held_or_freed j n m H L) as [LK|(q & Q1 & Q2)]; [|exists q; split; [lia|exact Q2]].
    exfalso. destruct (holder _ _ _ (ex_up m) LK) as (rq' & id' & g' & h' & tr' & r' & p' & o' & Nm & _).
    apply (B m (Nat.le_refl m)). apply (ex_enabled m j _ rq' Nm eq_refl eq_refl). auto.
Qed.
Lemma returns : forall N n i x p rq, nth_error (w_ph (z_w (zs n))) i = Some x -> req_of x = Some rq -> nth_error (sy_thr (w_tsm (z_w (zs n)))) i = Some p ->
  (left x p <= N)%nat -> (forall m y, (n <= m)%nat -> nth_error (w_ph (z_w (zs m))) i = Some y -> req_of y = Some rq -> looping y = false) ->
  exists m f, (n < m)%nat /\ first_done i f (w_done (z_w (zs n))) (w_done (z_w (zs m))) /\ fi_req f = rq.
Proof.
  induction N as [|N IH]; intros n i x p rq Nx Q Np LE NL.
  { pose proof (left_pos _ _ _ _ _ _ (ex_up n) Nx Q Np). lia. }
  assert (OWN : forall m, (n <= m)%nat -> z_of i (az m) = true -> exists m f, (n < m)%nat /\ first_done i f (w_done (z_w (zs n))) (w_done (z_w (zs m))) /\ fi_req f = rq).
  { intros m H O. destruct (first_own i n m H O) as (k & K1 & K2 & K3). destruct (stay i _ rq n k (proj1 K1) Nx Q K3) as (A & B & d & D & OD). rewrite Np in B.
    destruct (ex_own k i _ p rq A Q B K2) as [(f & F1 & F2 & F3 & _)|(x' & p' & P1 & P2 & P3 & P4 & P5)].
    - exists (S k), f. split; [lia|]. split; [|exact F3]. exists d. split; [rewrite F1, D; reflexivity|]. auto.
    - destruct (IH (S k) i x' p' rq P1 P2 P3) as (m' & f & M & (d' & D1 & D2 & D3) & FR); [lia|intros m' y Hm Hy Hq; apply (NL m' y); [lia|exact Hy|exact Hq]|].
      exists m', f. split; [lia|]. split; [|exact FR]. exists (d' ++ d). split; [rewrite D1, P5, D, app_assoc; reflexivity|]. split; [exact D2|].
      intros g G. apply in_app_or in G. destruct G; auto. }
  destruct (FAIR i n) as (m & H & [O|B]); [exact (OWN m H O)|].
  assert (NO : forall k, (m <= k)%nat -> z_of i (az k) = false).
  { intros k Hk. destruct (z_of i (az k)) eqn:O; [|reflexivity]. exfalso. apply (B k Hk). exists (az k), (zs (S k)). split; [exact O|apply EX]. }
  (* the first own step after n, if any, lies before m *)
  assert (G : (exists k, (n <= k < m)%nat /\ z_of i (az k) = true) \/ forall k, (n <= k < m)%nat -> z_of i (az k) = false).
  { clear -H. induction H as [|m H IH]; [right; lia|]. destruct IH as [(k & K1 & K2)|IH]; [left; exists k; split; [lia|exact K2]|].
    destruct (z_of i (az m)) eqn:Z; [left; exists m; split; [lia|exact Z]|]. right. intros k Hk. destruct (Nat.eq_dec k m) as [->|D]; [exact Z|]. apply IH. lia. }
  destruct G as [(k & K1 & K2)|G]; [apply (OWN k); [lia|exact K2]|]. exfalso.
  assert (AT : forall k, (m <= k)%nat -> can_move bcast me (zs k) i \/ exists j, sy_lock (w_tsm (z_w (zs k))) = Some j).
  { intros k Hk. destruct (sy_lock (w_tsm (z_w (zs k)))) as [j|] eqn:L; [eauto|]. left.
    destruct (stay i x rq n k) as (A & _); [lia|exact Nx|exact Q| |].
    - intros k' Hk'. destruct (Nat.lt_ge_cases k' m); [apply G; lia|apply NO; lia].
    - apply (ex_enabled k i x rq A Q); [|auto]. apply (NL k x); auto; lia. }
  destruct (AT m (Nat.le_refl m)) as [M|(j & L)]; [exact (B m (Nat.le_refl m) M)|].
  destruct (holder _ _ _ (ex_up m) L) as (rq' & id' & g' & h' & tr' & r' & p' & o' & Nm & Npm & _).
  destruct (released _ m j _ p' L Nm Npm (Nat.le_refl _)) as (k & K1 & K2).
  destruct (AT k K1) as [M|(j' & L')]; [exact (B k K1 M)|congruence].
Qed.
End Execution.

Lemma call_begins : forall bcast me zs az n i rq, execution bcast me zs az -> az n = ZRequest i rq ->
  nth_error (w_ph (z_w (zs (S n)))) i = Some (NId rq) /\ nth_error (sy_thr (w_tsm (z_w (zs (S n))))) i = Some IDSpace /\ w_done (z_w (zs (S n))) = w_done (z_w (zs n)).
Proof.
  intros bcast me zs az n i rq EX A. pose proof (ex_live _ _ _ _ EX n) as L. destruct EX as [_ E]. specialize (E n). rewrite A in E. unfold zexec in E. rewrite L in E.
  destruct (z_free _ _) eqn:F; [|discriminate]. destruct (free_parts _ _ F) as (F1 & _). unfold z_do_w, wexec in E. destruct (w_dead _); [discriminate|]. rewrite F1 in E.
  unfold exec in E. destruct (sy_crash _); [discriminate|]. destruct (nth_error (sy_thr (w_tsm (z_w (zs n)))) i) as [[]|] eqn:T; try discriminate E.
  injection E as <-. cbn. rewrite !(upd_same _ _ _ _ _ T), !(upd_same _ _ _ _ _ F1). auto.
Qed.
(** every request returns *)
Lemma requests_return : forall bcast me zs az n i rq, execution bcast me zs az -> fair bcast me zs az -> az n = ZRequest i rq ->
  (lists rq = true -> forall m x, nth_error (w_ph (z_w (zs m))) i = Some x -> looping x = false) ->
  exists m f, (n < m)%nat /\ first_done i f (w_done (z_w (zs n))) (w_done (z_w (zs m))) /\ fi_req f = rq.
Proof.
  intros bcast me zs az n i rq EX FR A NL. destruct (call_begins _ _ _ _ _ _ _ EX A) as (N & T & D).
  destruct (returns _ _ _ _ EX FR _ (S n) i _ _ rq N eq_refl T (Nat.le_refl _)) as (m & f & M & FD & FQ).
  - intros m y H Ny Q. destruct (lists rq) eqn:LI; [exact (NL eq_refl m y Ny)|]. exact (only_lists_loop _ _ _ _ _ (ex_up _ _ _ _ EX m) Ny Q LI).
  - exists m, f. rewrite D in FD. split; [lia|]. auto.
Qed.


Lemma steps_bounded : forall bcast me zs az n i rq len, execution bcast me zs az -> az n = ZRequest i rq -> (20 <= own_steps i az (S n) len)%nat ->
  exists m f, (n < m <= S n + len)%nat /\ first_done i f (w_done (z_w (zs n))) (w_done (z_w (zs m))) /\ fi_req f = rq.
Proof.
  intros bcast me zs az n i rq len EX A C. destruct (call_begins _ _ _ _ _ _ _ EX A) as (N & T & D).
  destruct (bounded _ _ _ _ EX 20 (S n) len i _ _ rq N eq_refl T) as (m & f & M & FD & FQ); [cbn; lia|exact C|].
  exists m, f. rewrite D in FD. split; [lia|]. auto.
Qed.

(** ** Runs that come to rest are fair executions *)
Definition at_rest (z : whole) : Prop :=
  z_dead z = false /\ (forall i x, nth_error (w_ph (z_w z)) i = Some x -> x = NFree \/ looping x = true) /\ (forall i p, nth_error (sy_thr (w_tsm (z_w z))) i = Some p -> p = PIdle) /\
  (forall i x, nth_error (y_ph (z_y z)) i = Some x -> x = YFree) /\ (forall i p, nth_error (u_thr (y_u (z_y z))) i = Some p -> p = UIdle) /\
  (forall i o, nth_error (z_rest z) i = Some o -> o = None).
Lemma snoc_all : forall A (P : A -> Prop) (l : list A) a, P a -> (forall i x, nth_error l i = Some x -> P x) -> forall i x, nth_error (l ++ [a]) i = Some x -> P x.
Proof.
  intros A P l a PA H i x N. destruct (Nat.lt_ge_cases i (length l)) as [L|L].
  - rewrite nth_error_app1 in N by exact L. eauto.
  - rewrite nth_error_app2 in N by exact L. destruct (i - length l)%nat as [|[|]]; cbn in N; congruence.
Qed.
Lemma rest_spawn : forall bcast me z, at_rest z -> exists z', zexec bcast me z ZSpawn = Some z' /\ at_rest z' /\
  w_ph (z_w z') = w_ph (z_w z) ++ [NFree] /\ w_done (z_w z') = w_done (z_w z).
Proof.
  intros bcast me z (D & A1 & A2 & A3 & A4 & A5). destruct (z_live _ D) as (Y & W & C).
  unfold zexec. rewrite D. unfold wexec, yexec, exec. rewrite Y, W, C. cbn [uexec]. eexists. split; [reflexivity|]. split; [|split; reflexivity].
  unfold at_rest. cbn [z_w z_y z_rest w_ph w_tsm y_ph y_u]. fields. ufields. unfold z_dead. cbn [z_y z_w y_dead w_dead w_tsm]. fields. rewrite C.
  split; [rewrite ?Y, ?W; reflexivity|]. split; [apply snoc_all; auto|]. repeat split; (apply (snoc_all _ (fun y => y = _)); [reflexivity|assumption]).
Qed.
Lemma rest_still : forall bcast me z i, at_rest z -> ~ can_move bcast me z i.
Proof.
  intros bcast me z i (D & A1 & A2 & A3 & A4 & A5) (a & z' & O & E). unfold zexec in E. rewrite D in E.
  destruct a as [| | | |j|a|a]; try discriminate O; cbn [z_of] in O.
  - destruct (nth_error (y_ph (z_y z)) j) as [[]|]; try discriminate E. destruct (nth_error (z_rest z) j) as [o|] eqn:R; [|discriminate]. rewrite (A5 _ _ R) in E. discriminate E.
  - destruct (w_step a) eqn:S; [|discriminate]. unfold z_do_w, wexec in E. destruct (w_dead (z_w z)); [discriminate|].
    destruct a as [| | |j ok|j|b]; try discriminate S.
    + destruct (nth_error (w_ph (z_w z)) j) as [x|] eqn:N; [|discriminate]. destruct (A1 _ _ N) as [->|LO]; [discriminate E|]. destruct x as [| |? ? ? ? ? [[]|]| | | |]; try discriminate LO; discriminate E.
    + destruct (nth_error (w_ph (z_w z)) j) as [x|] eqn:N; [|discriminate]. destruct (A1 _ _ N) as [->|LO]; [discriminate E|]. destruct x as [| |? ? ? ? ? [[]|]| | | |]; try discriminate LO; discriminate E.
    + destruct (exec (w_tsm (z_w z)) b) as [s|] eqn:X; [|destruct (inside b); discriminate E]. unfold exec in X. destruct (sy_crash _); [discriminate|].
      destruct b as [| |j|j|j k|j k|k]; try discriminate O;
        (destruct (nth_error (sy_thr (w_tsm (z_w z))) j) as [p|] eqn:N; [|discriminate X]; rewrite (A2 _ _ N) in X; cbn in X; discriminate X).
  - destruct (y_step a) eqn:S; [|discriminate]. unfold z_do_y, yexec in E. destruct (y_dead (z_y z)); [discriminate|].
    destruct a as [| | |j ok|j|j|j|b]; try discriminate S; try (destruct (nth_error (y_ph (z_y z)) j) as [x|] eqn:N; [|discriminate]; rewrite (A3 _ _ N) in E; discriminate E).
    destruct (uexec (y_u (z_y z)) b) as [u|] eqn:X; [|destruct (y_inside b); discriminate E].
    destruct b as [| |j|j|j]; try discriminate O; cbn [uexec] in X; (destruct (nth_error (u_thr (y_u (z_y z))) j) as [p|] eqn:N; [|discriminate X]; rewrite (A4 _ _ N) in X; discriminate X).
Qed.
Fixpoint z_after (bcast : address) (me : option address) (az : nat -> zaction) (n : nat) : whole :=
  match n with
  | O => z_init
  | S m => match zexec bcast me (z_after bcast me az m) (az m) with Some z => z | None => z_after bcast me az m end
  end.
Lemma padded_by : forall bcast me (P : whole -> Prop) l z, (forall z, P z -> exists z', zexec bcast me z ZSpawn = Some z' /\ P z') -> (forall z i, P z -> ~ can_move bcast me z i) ->
  zrun bcast me z_init l = Some z -> P z ->
  exists zs az, execution bcast me zs az /\ fair bcast me zs az /\ (forall n a, nth_error l n = Some a -> az n = a) /\
    (forall n, (n <= length l)%nat -> zrun bcast me z_init (firstn n l) = Some (zs n)) /\
    (forall n, (length l <= n)%nat -> az n = ZSpawn /\ P (zs n)).
Proof.
  intros bcast me P l z PS PM R AR. set (az := fun n => nth n l ZSpawn). exists (z_after bcast me az), az.
  assert (PRE : forall k, (k <= length l)%nat -> zrun bcast me z_init (firstn k l) = Some (z_after bcast me az k)).
  { induction k as [|k IH]; intros H; [reflexivity|]. assert (NK : exists a, nth_error l k = Some a) by (destruct (nth_error l k) eqn:E; [eauto|apply nth_error_None in E; lia]).
    destruct NK as (a & NK). assert (FK : firstn (S k) l = firstn k l ++ [a]).
    { rewrite <- (firstn_skipn k l) in NK. rewrite nth_error_app2 in NK by (rewrite firstn_length; lia). rewrite firstn_length, Nat.min_l, Nat.sub_diag in NK by lia.
      destruct (skipn k l) as [|b t] eqn:SK; [discriminate|]. injection NK as ->. rewrite <- (firstn_skipn k l) at 1. rewrite SK. rewrite firstn_app, firstn_length, Nat.min_l by lia.
      replace (S k - k)%nat with 1%nat by lia. rewrite firstn_firstn, Nat.min_r by lia. reflexivity. }
    assert (az k = a) as AK by (unfold az; apply nth_error_nth; exact NK).
    assert (exists z1, zrun bcast me z_init (firstn (S k) l) = Some z1) as (z1 & Z1).
    { rewrite <- (firstn_skipn (S k) l) in R. rewrite zrun_app in R. destruct (zrun bcast me z_init (firstn (S k) l)); [eauto|discriminate]. }
    rewrite Z1. rewrite FK, zrun_app, (IH ltac:(lia)) in Z1. cbn [zrun] in Z1. cbn [z_after]. rewrite AK. destruct (zexec bcast me _ a); [congruence|discriminate]. }
  assert (POST : forall k, (length l <= k)%nat -> az k = ZSpawn /\ P (z_after bcast me az k)).
  { intros k H. assert (AK : forall k, (length l <= k)%nat -> az k = ZSpawn) by (intros k' H'; unfold az; apply nth_overflow; exact H'). split; [apply AK; exact H|]. induction H as [|k H IH].
    - specialize (PRE (length l) (Nat.le_refl _)). rewrite firstn_all, R in PRE. injection PRE as <-. exact AR.
    - cbn [z_after]. rewrite (AK k H). destruct (PS _ IH) as (z' & E & R'). rewrite E. exact R'. }
  split; [|split; [|split; [|split; [exact PRE|exact POST]]]].
  - split; [reflexivity|]. intros n. cbn [z_after]. destruct (Nat.lt_ge_cases n (length l)) as [L|L].
    + assert (P1 := PRE (S n) L). assert (P0 := PRE n (Nat.lt_le_incl _ _ L)). cbn [z_after] in P1.
      destruct (zexec bcast me (z_after bcast me az n) (az n)) eqn:E; [reflexivity|]. exfalso.
      destruct (nth_error l n) as [a|] eqn:NK; [|apply nth_error_None in NK; lia]. assert (az n = a) as AK by (unfold az; apply nth_error_nth; exact NK).
      rewrite <- (firstn_skipn n l) in R. rewrite zrun_app, P0 in R. rewrite <- (firstn_skipn n l), nth_error_app2 in NK by (rewrite firstn_length; lia).
      rewrite firstn_length, Nat.min_l, Nat.sub_diag in NK by lia. destruct (skipn n l) as [|b t]; [discriminate|]. injection NK as ->. cbn [zrun] in R. rewrite AK in E. rewrite E in R. discriminate R.
    + replace (az n) with ZSpawn by (unfold az; symmetry; apply nth_overflow; exact L). destruct (PS _ (proj2 (POST n L))) as (z' & E & _). rewrite E. reflexivity.
  - intros i n. exists (Nat.max n (length l)). split; [lia|]. right. intros m' H. apply PM, POST. lia.
  - intros n a H. unfold az. apply nth_error_nth. exact H.
Qed.
Lemma padded : forall bcast me l z, zrun bcast me z_init l = Some z -> at_rest z ->
  exists zs az, execution bcast me zs az /\ fair bcast me zs az /\ (forall n a, nth_error l n = Some a -> az n = a) /\
    (forall n, (n <= length l)%nat -> zrun bcast me z_init (firstn n l) = Some (zs n)) /\
    (forall n, (length l <= n)%nat -> az n = ZSpawn /\ at_rest (zs n) /\ (exists k, w_ph (z_w (zs n)) = w_ph (z_w z) ++ repeat NFree k) /\ w_done (z_w (zs n)) = w_done (z_w z)).
Proof.
  intros bcast me l z R AR. apply (padded_by bcast me (fun z' => at_rest z' /\ (exists k, w_ph (z_w z') = w_ph (z_w z) ++ repeat NFree k) /\ w_done (z_w z') = w_done (z_w z)) l z).
  - intros z1 (A & (k & B) & C). destruct (rest_spawn bcast me _ A) as (z' & E & R' & W1 & W2). exists z'. split; [exact E|]. split; [exact R'|]. split; [|congruence].
    exists (S k). rewrite W1, B, <- app_assoc. f_equal. cbn [repeat]. symmetry. apply repeat_cons.
  - intros z1 i (A & _). apply rest_still. exact A.
  - exact R.
  - split; [exact AR|]. split; [|reflexivity]. exists 0%nat. cbn. rewrite app_nil_r. reflexivity.
Qed.
Definition resting (z : whole) : bool :=
  negb (z_dead z) && forallb (fun x => match x with NFree => true | _ => looping x end) (w_ph (z_w z)) &&
  forallb (fun p => match p with PIdle => true | _ => false end) (sy_thr (w_tsm (z_w z))) &&
  forallb (fun x => match x with YFree => true | _ => false end) (y_ph (z_y z)) &&
  forallb (fun p => match p with UIdle => true | _ => false end) (u_thr (y_u (z_y z))) &&
  forallb (fun o => match o with None => true | _ => false end) (z_rest z).
Lemma resting_rest : forall z, resting z = true -> at_rest z.
Proof.
  intros z H. unfold resting in H. repeat (apply andb_true_iff in H; destruct H as [H ?]). rewrite negb_true_iff in H. split; [exact H|].
  repeat match goal with K : forallb _ _ = true |- _ => rewrite forallb_forall in K end.
  split; [|repeat split]; intros i x N; apply nth_error_In in N;
    match goal with K : forall y, In y ?l -> _, N : In x ?l |- _ => specialize (K x N) end; destruct x; try discriminate; auto.
Qed.
