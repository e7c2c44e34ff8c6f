(** * An answer that comes in time *)
Require Import List ZArith Bool Lia.
From Verif Require Import ModelClient ModelSystem ModelScan ModelWhole ModelTime SpecSystem SpecRun SpecFair SpecTime.
From Verif Require ModelTsm SpecTsm ProofsTsm ProofsTsmProps ModelUtsm ProofsServiceProps.
From Verif Require Import ProofsSystem ProofsSystemProps ProofsSystemLive ProofsScan ProofsWhole ProofsFair ProofsFairScan ProofsFairWhole ProofsTime.
Import ListNotations.
Import ModelTsm SpecTsm ProofsTsm ProofsTsmProps.
Open Scope Z_scope.

(** ** The handler that brings it *)
Definition sends (id v : Z) (g : nat) (p : pc) : Prop :=
  p = SendLock id v \/ (exists o, p = SendEval id v o g) \/ exists c, p = SendWait id v c g.
Definition bringing (w : world) (j : nat) (id : Z) (g : nat) : Prop :=
  exists v p, nth_error (w_ph w) j = Some (NHandle v) /\ nth_error (sy_thr (w_tsm w)) j = Some p /\ sends id (Z.of_nat v) g p.

Lemma same_channel : forall me w j id g v c x i i' id' g' y, up me w ->
  nth_error (w_ph w) i = Some x -> owns x = Some (id, g) -> running x = true ->
  nth_error (sy_thr (w_tsm w)) j = Some (SendWait id v c g) ->
  nth_error (w_ph w) i' = Some y -> nth_error (sy_thr (w_tsm w)) i' = Some (RecvWait id' c g') -> i' = i.
Proof.
  intros me w j id g v c x i i' id' g' y U N OW RU Nj Ny Np. destruct (up_inv _ _ U) as ((l & IA) & IB & I1 & I2 & I3 & RE).
  destruct (in_phase _ _ _ _ U Ny) as (p & Np' & F). rewrite Np in Np'. injection Np' as <-.
  destruct y; cbn in F; try discriminate F; try (destruct F; fail); [|destruct F as (? & _ & []); fail].
  destruct F as [-> ->].
  pose proof (k_found _ I3 _ _ _ _ _ Nj eq_refl) as [Q1 [(o & T & Do)|[k' Q]]]; [|destruct (b_open _ IB _ _ _ _ k' N OW RU Q)].
  pose proof (k_found _ I3 _ _ _ _ _ Np eq_refl) as [Q2 [(o' & T' & Do')|[k' Q]]]; [|destruct (b_open _ IB _ _ _ _ k' Ny eq_refl eq_refl Q)].
  destruct c as [ch|]; [|destruct Q1; reflexivity].
  pose proof (j_inj _ I2 _ _ _ Do Do') as <-. pose proof (tab_inj _ _ _ (j_tab _ I2) T T' eq_refl) as EQ. injection EQ as <- <-.
  exact (b_uniq _ IB _ _ _ _ _ _ _ Ny N eq_refl OW).
Qed.

Lemma bring_step : forall me w a w' i x j id g, up me w -> up me w' -> wexec me w a = Some w' ->
  nth_error (w_ph w) i = Some x -> owns x = Some (id, g) -> running x = true ->
  bringing w j id g -> w_of i a = false \/ w_of j a = false -> bringing w' j id g.
Proof.
  intros me w a w' i x j id g U U' E N OW RU (v & p & Nj & Np & S) O. destruct (up_inv _ _ U) as ((l & IA) & IB & I1 & I2 & I3 & RE).
  assert (NFJ : match a with WCall k _ | WArrive k _ _ => k <> j | _ => True end).
  { destruct a; auto; intros ->; unfold wexec in E; destruct (w_dead w); try discriminate E; rewrite Nj in E; discriminate E. }
  destruct (w_of j a) eqn:OJ.
  - destruct O as [O|O]; [|discriminate O].
    assert (UT : forall q, nth_error (upd (sy_thr (w_tsm w)) j q) j = Some q) by (intros q; apply (upd_same _ _ _ _ _ Np)).
    destruct a as [| | |k ok|k|b]; cbn [w_of] in OJ; try discriminate OJ;
      try (apply Nat.eqb_eq in OJ; subst k; unfold wexec in E; destruct (w_dead w); [discriminate|]; rewrite Nj in E; discriminate E).
    destruct (wtsm_inv _ _ _ _ E) as (s & D & IN & X & K1 & K2).
    destruct b as [|k o|k|k|k n|k m|k]; cbn [w_of] in OJ; try discriminate OJ.
    + apply Nat.eqb_eq in OJ. subst k. unfold exec in X. destruct (sy_crash (w_tsm w)) eqn:C; [discriminate|]. rewrite Np in X.
      destruct S as [->|[(o & ->)|(c & ->)]]; cbn [step_of] in X.
      * destruct (sy_lock (w_tsm w)); [discriminate|]. destruct (b_own _ IB _ _ _ _ N OW) as (o & T). rewrite (in_lookup _ _ _ (i_keys _ I1) T) in X.
        injection X as <-. specialize (K2 _ eq_refl). cbn [ModelSystem.returned] in K2. subst w'.
        exists v, (SendEval id (Z.of_nat v) o g). split; [exact Nj|]. split; [cbn; apply UT|right; left; eauto].
      * injection X as <-. specialize (K1 eq_refl). subst w'. exists v. eexists. split; [exact Nj|]. split; [cbn; apply UT|right; right; eauto].
      * destruct c as [ch|]; [|discriminate X]. destruct (closed (w_tsm w) ch); [|discriminate X]. injection X as <-. exfalso.
        destruct U' as (_ & _ & C'). specialize (K2 _ eq_refl). rewrite K2 in C'. cbn in C'. discriminate C'.
    + exfalso. apply Nat.eqb_eq in OJ. subst k. unfold exec in X. destruct (sy_crash (w_tsm w)); [discriminate|]. rewrite Np in X.
      destruct S as [->|[(o & ->)|(c & ->)]]; discriminate X.
    + exfalso. apply Nat.eqb_eq in OJ. subst k. unfold exec in X. destruct (sy_crash (w_tsm w)); [discriminate|]. rewrite Np in X.
      destruct S as [->|[(o & ->)|(c & ->)]]; discriminate X.
    + exfalso. destruct (deliver_inv _ _ _ _ X) as (sid & v' & c & sg & rid & rg & A & B & NE & _).
      destruct (Nat.eq_dec k j) as [->|NK].
      * rewrite Np in A. injection A as ->. destruct S as [Q|[(? & Q)|(c' & Q)]]; try discriminate Q. injection Q as -> -> <- ->.
        destruct (nth_error (w_ph w) m) as [y|] eqn:Ny.
        -- pose proof (same_channel _ _ _ _ _ _ _ _ _ _ _ _ _ U N OW RU Np Ny B) as ->. cbn in O. rewrite Nat.eqb_refl, orb_true_r in O. discriminate O.
        -- apply nth_error_None in Ny. pose proof (a_len _ _ _ IA) as LE. assert (m < length (sy_thr (w_tsm w)))%nat by (apply nth_error_Some; congruence). lia.
      * apply orb_prop in OJ. destruct OJ as [OJ|OJ]; apply Nat.eqb_eq in OJ; [congruence|subst m]. rewrite Np in B. injection B as ->.
        destruct S as [Q|[(? & Q)|(c' & Q)]]; discriminate Q.
  - destruct (other_step' _ _ _ _ _ _ U E Nj NFJ OJ) as (A & B & _). exists v, p. split; [exact A|]. split; [congruence|exact S].
Qed.

Lemma bring_goes : forall me w i rq h tr k j id g c, up me w -> nth_error (w_ph w) i = Some (NRecv rq id g h tr k) ->
  nth_error (sy_thr (w_tsm w)) i = Some (RecvWait id c g) -> sy_lock (w_tsm w) = None -> bringing w j id g ->
  exists a w', w_of j a = true /\ w_step a = true /\ wexec me w a = Some w' /\ fires a = false.
Proof.
  intros me w i rq h tr k j id g c U N Np L (v & p & Nj & Npj & S). destruct (up_inv _ _ U) as ((l & IA) & IB & I1 & I2 & I3 & RE). pose proof U as (_ & D & C).
  assert (TS : forall b s, exec (w_tsm w) b = Some s -> inside b = true -> w_of j (WTsm b) = true -> fires (WTsm b) = false ->
    exists a w', w_of j a = true /\ w_step a = true /\ wexec me w a = Some w' /\ fires a = false).
  { intros b s X IN O FI. exists (WTsm b). unfold wexec. rewrite D, IN, X. destruct (Nat.eqb _ _); [eexists; split; [exact O|repeat split; assumption]|].
    destruct (sy_log s); eexists; split; try exact O; repeat split; assumption. }
  destruct S as [->|[(o & ->)|(c' & ->)]].
  - destruct (b_own _ IB _ _ id g N eq_refl) as (o & T). eapply (TS (AStep j)); [|reflexivity|apply Nat.eqb_refl|reflexivity].
    unfold exec. rewrite C, Npj. cbn [step_of]. rewrite L, (in_lookup _ _ _ (i_keys _ I1) T). reflexivity.
  - eapply (TS (AStep j)); [|reflexivity|apply Nat.eqb_refl|reflexivity]. unfold exec. rewrite C, Npj. reflexivity.
  - pose proof (k_found _ I3 _ _ _ _ _ Npj eq_refl) as [Q1 [(o & T & Do)|[k' Q]]]; [|destruct (b_open _ IB _ _ _ _ k' N eq_refl eq_refl Q)].
    pose proof (k_found _ I3 _ _ _ _ _ Np eq_refl) as [Q2 [(o' & T' & Do')|[k' Q]]]; [|destruct (b_open _ IB _ _ _ _ k' N eq_refl eq_refl Q)].
    assert (o' = o) as ->. { pose proof (in_lookup _ _ _ (i_keys _ I1) T) as E1. rewrite (in_lookup _ _ _ (i_keys _ I1) T') in E1. congruence. }
    destruct (j_open _ I2 _ _ _ T) as [(ch & E1 & E2)|(k' & p & E1 & E2)].
    2:{ exfalso. assert (sy_lock (w_tsm w) = Some k') as X by (apply (i_lock _ I1 k' p E1); destruct p; cbn in *; congruence). congruence. }
    assert (c' = Some ch) as -> by congruence. assert (c = Some ch) as -> by congruence.
    eapply (TS (ADeliver j i)); [|reflexivity|cbn; rewrite Nat.eqb_refl; reflexivity|reflexivity].
    unfold exec. rewrite C, Npj, Np, Nat.eqb_refl, E2. reflexivity.
Qed.

(** ** From its arrival on *)
Definition carried (z : whole) (j : nat) (src : address) (b : list Z) (id : Z) (g : nat) : Prop :=
  (nth_error (y_ph (z_y z)) j = Some YFree /\ nth_error (z_rest z) j = Some (Some (src, b)) /\ nth_error (w_ph (z_w z)) j = Some NFree)
  \/ bringing (z_w z) j id g.

Lemma carry_step : forall bcast me z act z' i x j src b id pl g, zreach bcast me z -> zexec bcast me z act = Some z' -> z_dead z' = false ->
  delivery (fst (handleMsg (fun _ => true) src b)) = Some (id, pl) ->
  nth_error (w_ph (z_w z)) i = Some x -> owns x = Some (id, g) -> running x = true ->
  carried z j src b id g -> z_of i act = false \/ z_of j act = false -> carried z' j src b id g.
Proof.
  intros bcast me z act z' i x j src b id pl g RE E LV' DL N OW RU CA O. pose proof (zexec_live _ _ _ _ _ E) as LV. pose proof (zreach_up _ _ _ RE LV) as U.
  pose proof (zreach_up _ _ _ (zreach_step _ _ _ _ _ RE E) LV') as U'. destruct (zreach_y _ _ _ RE) as (seen & YI).
  unfold zexec in E. rewrite LV in E. unfold z_do_w, z_do_y in E. destruct CA as [(Yj & Rj & Nj)|BR].
  - assert (NFJ : forall k, z_free z k = true -> k <> j) by (intros k FR ->; destruct (free_parts _ _ FR) as (_ & _ & F); congruence).
    assert (LJ : (j < length (y_ph (z_y z)))%nat) by (apply nth_error_Some; congruence).
    assert (LR : (j < length (z_rest z))%nat) by (apply nth_error_Some; congruence).
    assert (LN : (j < length (w_ph (z_w z)))%nat) by (apply nth_error_Some; congruence).
    destruct act as [|k rq|k q|k s0 b0|k|a|a]; cbn [z_of] in O.
    + left. destruct (wexec me (z_w z) WSpawn) as [w|] eqn:EW; [|discriminate]. destruct (yexec bcast me (z_y z) YSpawn) as [y|] eqn:EY; [|discriminate]. injection E as <-. cbn [z_w z_y z_rest].
      unfold wexec in EW. destruct (w_dead _); [discriminate|]. destruct (exec _ _); [|discriminate]. injection EW as <-.
      unfold yexec in EY. destruct (y_dead _); [discriminate|]. destruct (ModelUtsm.uexec _ _); [|discriminate]. injection EY as <-. cbn [w_ph y_ph].
      rewrite !nth_error_app1 by assumption. auto.
    + left. destruct (z_free z k) eqn:FR; [|discriminate]. destruct (wexec me (z_w z) (WCall k rq)) as [w|] eqn:EW; [|discriminate]. injection E as <-. cbn [z_w z_y z_rest].
      destruct (other_step' _ _ _ _ _ _ U EW Nj (NFJ _ FR) eq_refl) as (A & _). auto.
    + left. destruct (z_free z k) eqn:FR; [|discriminate]. destruct (yexec bcast me (z_y z) (YCall k q)) as [y|] eqn:EY; [|discriminate]. injection E as <-. cbn [z_w z_y z_rest].
      destruct (free_parts _ _ FR) as (_ & F2 & _). split; [|auto].
      unfold yexec in EY. destruct (y_dead _); [discriminate|]. rewrite F2 in EY. destruct (scan_frame _ _ _); [|injection EY as <-; exact Yj].
      destruct (ModelUtsm.uexec _ _); [|discriminate]. injection EY as <-. cbn. rewrite upd_other by exact (NFJ _ FR). exact Yj.
    + left. destruct (z_free z k) eqn:FR; [|discriminate]. destruct (yexec bcast me (z_y z) (YArrive k s0 b0 false)) as [y|] eqn:EY; [|discriminate]. injection E as <-. cbn [z_w z_y z_rest].
      destruct (free_parts _ _ FR) as (_ & F2 & _). split; [|split; [rewrite upd_other by exact (NFJ _ FR); exact Rj|exact Nj]].
      unfold yexec in EY. destruct (y_dead _); [discriminate|]. rewrite F2 in EY. destruct (handleMsg _ _ _) as [eff pn].
      destruct (publish_other _ _ _ _ _ j EY) as [-> _]; [exact (fun Q => NFJ _ FR (eq_sym Q)) || exact (NFJ _ FR)|exact Yj].
    + destruct (Nat.eq_dec k j) as [->|NK].
      * right. rewrite Yj, Rj in E. destruct (wexec me (z_w z) (WArrive j src b)) as [w|] eqn:EW; [|discriminate]. injection E as E. rewrite <- E. cbn [z_w].
        unfold wexec in EW. destruct (w_dead _); [discriminate|]. rewrite Nj in EW. destruct (handleMsg (fun _ => true) src b) as [eff pn]. cbn [fst] in DL. rewrite DL in EW.
        destruct (in_phase _ _ _ _ U Nj) as (p & Np & F). cbn in F. subst p. unfold exec in EW. destruct (sy_crash _); [discriminate|]. rewrite Np in EW. injection EW as <-.
        exists (length (w_in (z_w z))). eexists. split; [cbn; apply (upd_same _ _ _ _ _ Nj)|]. split; [cbn; apply (upd_same _ _ _ _ _ Np)|left; reflexivity].
      * left. destruct (nth_error (y_ph (z_y z)) k) as [[]|]; try discriminate E. destruct (nth_error (z_rest z) k) as [[[s0 b0]|]|]; try discriminate E.
        destruct (wexec me (z_w z) (WArrive k s0 b0)) as [w|] eqn:EW; [|discriminate]. injection E as <-. cbn [z_w z_y z_rest].
        destruct (other_step' _ _ _ _ _ _ U EW Nj NK eq_refl) as (A & _). rewrite upd_other by exact NK. auto.
    + left. destruct (w_step a) eqn:S; [|discriminate]. destruct (wexec me (z_w z) a) as [w|] eqn:EW; [|discriminate]. injection E as <-. cbn [z_w z_y z_rest].
      destruct (free_step _ _ _ _ _ U EW S Nj) as [_ A]. auto.
    + left. destruct (y_step a) eqn:S; [|discriminate]. destruct (yexec bcast me (z_y z) a) as [y|] eqn:EY; [|discriminate]. injection E as <-. cbn [z_w z_y z_rest].
      destruct (y_other _ _ _ _ _ j EY S (y_free_step _ _ _ _ _ _ _ YI EY S Yj)) as [-> _]. auto.
  - right. destruct act as [|k rq|k q|k s0 b0|k|a|a]; cbn [z_of] in O.
    + destruct (wexec me (z_w z) WSpawn) as [w|] eqn:EW; [|discriminate]. destruct (yexec _ _ _ _) as [y|]; [|discriminate]. injection E as E. rewrite <- E in U'. rewrite <- E. cbn [z_w] in *. exact (bring_step _ _ _ _ _ _ _ _ _ U U' EW N OW RU BR ltac:(first [exact O|left; reflexivity])).
    + destruct (z_free _ _); [|discriminate]. destruct (wexec me _ _) as [w|] eqn:EW; [|discriminate]. injection E as E. rewrite <- E in U'. rewrite <- E. cbn [z_w] in *. exact (bring_step _ _ _ _ _ _ _ _ _ U U' EW N OW RU BR ltac:(first [exact O|left; reflexivity])).
    + destruct (z_free _ _); [|discriminate]. destruct (yexec _ _ _ _) as [y|]; [|discriminate]. injection E as <-. exact BR.
    + destruct (z_free _ _); [|discriminate]. destruct (yexec _ _ _ _) as [y|]; [|discriminate]. injection E as <-. exact BR.
    + destruct (nth_error (y_ph (z_y z)) k) as [[]|]; try discriminate E. destruct (nth_error (z_rest z) k) as [[[s0 b0]|]|]; try discriminate E.
      destruct (wexec me _ _) as [w|] eqn:EW; [|discriminate]. injection E as E. rewrite <- E in U'. rewrite <- E. cbn [z_w] in *. exact (bring_step _ _ _ _ _ _ _ _ _ U U' EW N OW RU BR ltac:(first [exact O|left; reflexivity])).
    + destruct (w_step a) eqn:S; [|discriminate]. destruct (wexec me (z_w z) a) as [w|] eqn:EW; [|discriminate]. injection E as E. rewrite <- E in U'. rewrite <- E. cbn [z_w] in *. exact (bring_step _ _ _ _ _ _ _ _ _ U U' EW N OW RU BR ltac:(first [exact O|left; reflexivity])).
    + destruct (y_step a) eqn:S; [|discriminate]. destruct (yexec _ _ _ _) as [y|]; [|discriminate]. injection E as <-. exact BR.
Qed.

Lemma arrives : forall bcast me t j src b t', texec bcast me t (TDo (ZArrive j src b)) = Some t' -> z_dead (t_z t') = false -> published (fun _ => true) [(src, b)] = [] ->
  z_w (t_z t') = z_w (t_z t) /\ t_now t' = t_now t /\ (forall i, t_due t' i = t_due t i) /\
  nth_error (y_ph (z_y (t_z t'))) j = Some YFree /\ nth_error (z_rest (t_z t')) j = Some (Some (src, b)) /\ nth_error (w_ph (z_w (t_z t'))) j = Some NFree.
Proof.
  intros bcast me t j src b t' T LV PB. destruct (texec_do _ _ _ _ _ T) as (z & _ & E & ->). cbn [set_z t_z t_now t_due clocks] in *.
  pose proof (zexec_live _ _ _ _ _ E) as LV0. unfold zexec in E. rewrite LV0 in E. destruct (z_free (t_z t) j) eqn:FR; [|discriminate]. destruct (free_parts _ _ FR) as (F1 & F2 & F3).
  destruct (yexec bcast me (z_y (t_z t)) (YArrive j src b false)) as [y|] eqn:EY; [|discriminate]. injection E as <-. cbn [z_w z_y z_rest].
  split; [reflexivity|]. split; [reflexivity|]. split; [reflexivity|]. split; [|split; [apply (upd_same _ _ _ _ _ F3)|exact F1]].
  unfold yexec in EY. destruct (y_dead _); [discriminate|]. rewrite F2 in EY.
  rewrite (published_known _ (fun _ => false)), <- effect_pub_same in PB. destruct (handleMsg (fun _ => false) src b) as [eff pn]. cbn [fst] in PB. rewrite PB in EY.
  cbn [y_publish] in EY. destruct pn; injection EY as <-; cbn; apply (upd_same _ _ _ _ _ F2).
Qed.

Definition kept (i j : nat) (src : address) (b : list Z) (id : Z) (h : list reply) (n : Z) (t0 t : timed) : Prop :=
  (exists rq g tr k p, calling i rq t (NRecv rq id g h tr k) p /\ carried (t_z t) j src b id g /\ t_now t = n /\
     (p = RecvLock id \/ n < t_due t i) /\ returned_of i t = returned_of i t0)
  \/ answered i h t0 t.

Lemma history_hop : forall i x p a x' p', hop i x p a x' p' -> exists r, history x' = history x ++ r.
Proof.
  intros i x p a x' p' H. destruct H; cbn [history]; try (exists []; symmetry; apply app_nil_r); eauto.
Qed.
Lemma history_end : forall i x p a f, ends i x p a f -> fi_hist f = history x.
Proof. intros i x p a f H. destruct H; reflexivity. Qed.

Lemma answered_step : forall bcast me t a t' t0 i h, zreach bcast me (t_z t) -> texec bcast me t a = Some t' -> z_dead (t_z t') = false -> answered i h t0 t -> answered i h t0 t'.
Proof.
  intros bcast me t a t' t0 i h RE T LV (v & r & [(RO & x & N & HX)|(f & d & RO & HF)]).
  - destruct a as [a|d].
    + assert (Q : exists rq, req_of x = Some rq) by (destruct x; cbn [history] in HX; try (destruct h; discriminate HX); eexists; reflexivity). destruct Q as (rq & Q).
      assert (LV0 : z_dead (t_z t) = false) by (apply (live_back bcast me [TDo a] t t'); [cbn [trun]; rewrite T; reflexivity|exact LV]).
      destruct (in_phase _ _ _ _ (zreach_up _ _ _ RE LV0) N) as (p & Np & _).
      destruct (seen_step _ _ _ _ _ _ _ _ _ RE T LV (conj N (conj Q Np))) as [((N' & _) & _ & RO')|[(b & x' & p' & H1 & (N' & _) & _ & _ & RO')|(b & f & EN & _ & RO')]].
      * exists v, r. left. split; [congruence|eauto].
      * destruct (history_hop _ _ _ _ _ _ H1) as (r' & HX'). exists v, (r ++ r'). left. split; [congruence|]. exists x'. split; [exact N'|].
        rewrite HX', HX, <- app_assoc. reflexivity.
      * exists v, r. right. exists f, []. split; [rewrite RO', RO; reflexivity|]. rewrite (history_end _ _ _ _ _ EN). exact HX.
    + exists v, r. left. cbn [texec] in T. destruct (0 <? d); [|discriminate]. injection T as <-. eauto.
  - destruct (returned_grows bcast me [a] t t' i) as (d1 & RO1); [cbn [trun]; rewrite T; reflexivity|].
    exists v, r. right. exists f, (d1 ++ d). split; [rewrite RO1, RO, app_assoc; reflexivity|exact HF].
Qed.

Lemma kept_run : forall bcast me l t t' i j src b id pl h n t0, zreach bcast me (t_z t) -> trun bcast me t l = Some t' -> prompt bcast me t l -> z_dead (t_z t') = false ->
  delivery (fst (handleMsg (fun _ => true) src b)) = Some (id, pl) ->
  kept i j src b id h n t0 t -> kept i j src b id h n t0 t'.
Proof.
  intros bcast me l. induction l as [|a l IH]; intros t t' i j src b id pl h n t0 RE H PR LV DL S; cbn [trun] in H; [injection H as <-; exact S|].
  destruct (texec bcast me t a) as [t1|] eqn:E; [|discriminate]. pose proof (live_back _ _ _ _ _ H LV) as LV1. cbn [prompt] in PR. destruct PR as [PA PR].
  apply (IH t1 t' i j src b id pl h n t0 (reach_step _ _ _ _ _ RE E) H (PR _ E) LV DL).
  destruct S as [(rq & g & tr & k & p & CA & CR & NW & DU & RO)|AN]; [|right; exact (answered_step _ _ _ _ _ _ _ _ RE E LV1 AN)].
  assert (LV0 : z_dead (t_z t) = false) by (apply (live_back bcast me [a] t t1); [cbn [trun]; rewrite E; reflexivity|exact LV1]).
  pose proof (zreach_up _ _ _ RE LV0) as U. destruct a as [a|d].
  - pose proof (now_do _ _ _ _ _ E) as NW1. pose proof CA as (N & Q & Np). destruct (texec_do _ _ _ _ _ E) as (z1 & M & EZ & EQ).
    assert (Z1 : z1 = t_z t1) by (rewrite EQ; reflexivity). assert (LVZ : z_dead z1 = false) by (rewrite Z1; exact LV1).
    destruct (in_phase _ _ _ _ U N) as (p0 & Np0 & F). rewrite Np in Np0. injection Np0 as <-.
    destruct (z_of i a) eqn:O.
    + destruct (own_is_w _ _ _ _ _ _ _ _ RE EZ N Q O) as (w & -> & EW & OW).
      assert (U1 : up me (z_w z1)) by exact (zreach_up _ _ _ (zreach_step _ _ _ _ _ RE EZ) LVZ).
      destruct (own_moves _ _ _ _ _ _ _ _ U U1 EW N Q Np OW) as [(f & _ & EN & _)|(x2 & p2 & N2 & Np2 & H2 & WD)]; [inversion EN|].
      assert (RO1 : returned_of i t1 = returned_of i t0) by (rewrite <- RO; unfold returned_of; rewrite <- Z1, WD; reflexivity).
      pose proof (due_own t w i p OW Np) as DO.
      assert (D1 : t_due t1 i = due_next p w (t_now t) (t_due t i)) by (rewrite EQ; exact DO).
      inversion H2; subst.
      * left. exists rq, g, tr, k, p2. rewrite Z1 in N2, Np2. split; [exact (conj N2 (conj eq_refl Np2))|].
        split; [|split; [exact NW1|split; [|exact RO1]]].
        -- refine (carry_step _ _ _ _ _ _ _ _ _ _ _ _ _ RE EZ LV1 DL N eq_refl eq_refl CR (or_intror _)). cbn [z_of].
           assert (NIJ : i <> j).
           { intros ->. destruct CR as [(_ & _ & X)|(v & q & X & _)]; congruence. }
           match goal with PH : pc_hop _ _ _ _ |- _ => inversion PH; subst; cbn; apply Nat.eqb_neq; exact NIJ end.
        -- right. rewrite D1. match goal with PH : pc_hop _ _ _ _ |- _ => inversion PH; subst; cbn in F |- *; try (destruct F; fail) end.
           ++ unfold answer_wait. lia.
           ++ destruct DU as [DU|DU]; [discriminate DU|exact DU].
           ++ destruct p; try discriminate; destruct F.
      * exfalso. destruct DU as [DU|DU]; [discriminate DU|]. cbn in OW. apply Nat.eqb_eq in OW. cbn in M. lia.
      * right. exists v, []. left. split; [exact RO1|]. eexists. split; [exact N2|reflexivity].
    + left. destruct (z_other _ _ _ _ _ _ _ _ RE EZ N Q O) as (N' & Np' & D). rewrite Np in Np'. rewrite Z1 in N', Np', D. exists rq, g, tr, k, p.
      split; [exact (conj N' (conj Q Np'))|]. split; [rewrite <- Z1; exact (carry_step _ _ _ _ _ _ _ _ _ _ _ _ _ RE EZ LVZ DL N eq_refl eq_refl CR (or_introl O))|].
      split; [congruence|]. split.
      * replace (t_due t1 i) with (t_due t i); [exact DU|]. rewrite EQ. cbn [set_z t_due]. symmetry. apply due_other; [exact O|].
        intros rq' ->. unfold zexec in EZ. rewrite LV0 in EZ. destruct (z_free (t_z t) i) eqn:FR; [|discriminate].
        destruct (free_parts _ _ FR) as (F1 & _). rewrite N in F1. discriminate F1.
      * rewrite <- RO. unfold returned_of. destruct D as [->|(f & -> & NE)]; [reflexivity|]. cbn [filter]. rewrite (proj2 (Nat.eqb_neq _ _) NE). reflexivity.
  - exfalso. cbn [texec] in E. destruct (0 <? d) eqn:DP; [|discriminate]. specialize (PA d eq_refl). destruct CA as (N & Q & Np).
    destruct (idle_waits bcast me t d i _ p rq RE LV0 ltac:(lia) PA N eq_refl eq_refl Np) as [WT _].
    destruct (in_phase _ _ _ _ U N) as (p0 & Np0 & F). rewrite Np in Np0. injection Np0 as <-.
    destruct p; try discriminate WT; cbn in F; try (destruct F; fail). destruct F as [-> ->].
    assert (GO : forall m a w', w_of m a = true -> w_step a = true -> wexec me (z_w (t_z t)) a = Some w' -> fires a = false -> False).
    { intros m a w' O S EX FI. apply (PA 0 m); [lia|]. exists (ZW a). eexists. split; [exact O|]. cbn [texec].
      replace (may_fire (later t 0) (ZW a)) with true.
      - cbn [later t_z]. unfold zexec, z_do_w. rewrite LV0, S, EX. reflexivity.
      - destruct a as [| | | | |a]; try reflexivity. destruct a; try reflexivity. discriminate FI. }
    destruct CR as [(Yj & Rj & Nj)|BR].
    + apply (PA 0 j); [lia|]. exists (ZDeliver j). destruct (in_phase _ _ _ _ U Nj) as (p & Npj & F). cbn in F. subst p.
      cbn [texec may_fire later t_z]. unfold zexec. rewrite LV0, Yj, Rj. pose proof U as (_ & D & C).
      unfold wexec. rewrite D, Nj. destruct (handleMsg (fun _ => true) src b) as [eff pn]. cbn [fst] in DL. rewrite DL. unfold exec. rewrite C, Npj.
      eexists. split; [apply Nat.eqb_refl|reflexivity].
    + destruct (sy_lock (w_tsm (z_w (t_z t)))) as [m|] eqn:LK.
      * destruct (holder _ _ _ U LK) as (rq' & id' & g' & h' & tr' & r' & p' & o' & Nk & Npk & PU).
        destruct (enabled_kind me _ m _ p' rq' U Nk eq_refl eq_refl Npk (or_intror LK)) as [(a & w' & O & S & EX & FI)|(WT' & _)]; [exact (GO _ _ _ O S EX FI)|].
        destruct p'; try discriminate PU; discriminate WT'.
      * destruct (bring_goes _ _ _ _ _ _ _ _ _ _ _ U N Np LK BR) as (a & w' & O & S & EX & FI). exact (GO _ _ _ O S EX FI).
Qed.

Lemma not_lost : forall bcast me l1 t0 i j id h src b pl t1 l2 t2, trun bcast me t_init l1 = Some t0 -> awaits i id h t0 ->
  In (ModelClient.EDeliver id pl) (fst (handleMsg (fun _ => true) src b)) -> published (fun _ => true) [(src, b)] = [] ->
  texec bcast me t0 (TDo (ZArrive j src b)) = Some t1 -> trun bcast me t1 l2 = Some t2 -> prompt bcast me t1 l2 -> z_dead (t_z t2) = false ->
  t_now t0 < t_now t2 -> answered i h t0 t2.
Proof.
  intros bcast me l1 t0 i j id h src b pl t1 l2 t2 R (rq & g & tr & k & N & DU) DL PB T H PR LV NW. apply delivered_once in DL.
  pose proof (reach_run _ _ _ _ _ (reach_init bcast me) R) as RE. pose proof (reach_step _ _ _ _ _ RE T) as RE1. pose proof (live_back _ _ _ _ _ H LV) as LV1.
  destruct (arrives _ _ _ _ _ _ _ T LV1 PB) as (W & NW1 & D1 & YJ & RJ & NJ). pose proof (zreach_up _ _ _ RE1 LV1) as U1.
  rewrite <- W in N, DU. destruct (in_phase _ _ _ _ U1 N) as (p & Np & F).
  assert (K : kept i j src b id h (t_now t0) t0 t1).
  { left. exists rq, g, tr, k, p. split; [exact (conj N (conj eq_refl Np))|]. split; [left; auto|]. split; [exact NW1|]. split.
    - rewrite D1. destruct DU as [DU|DU]; [left; congruence|right; exact DU].
    - unfold returned_of. rewrite W. reflexivity. }
  destruct (kept_run _ _ _ _ _ _ _ _ _ _ _ _ _ _ RE1 H PR LV DL K) as [(? & ? & ? & ? & ? & _ & _ & X & _)|A]; [lia|exact A].
Qed.
