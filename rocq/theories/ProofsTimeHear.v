(** * What a discovery call hears, and when it ends *)
Require Import List ZArith Bool Lia.
From Verif Require Import ModelClient ModelSystem ModelScan ModelWhole ModelTime SpecSystem SpecUtsm SpecScan SpecWhole SpecFair SpecTime SpecTimeScan.
From Verif Require ModelTsm SpecTsm ProofsTsm ProofsTsmProps ModelUtsm ProofsUtsm ProofsUtsmProps ProofsFate.
From Verif Require Import ProofsSystem ProofsSystemProps ProofsSystemLive ProofsScan ProofsWhole ProofsFair ProofsFairWhole ProofsFairScan ProofsTime ProofsTimeScan.
Import ListNotations.
Import ModelTsm ModelUtsm ProofsTsm ProofsUtsm ProofsUtsmProps ProofsFate.
Open Scope Z_scope.

(** ** What a step does to the manager *)
Definition begun (a : yaction) (b : uaction) : Prop :=
  b = VSpawn \/ (exists j lo hi, b = VCall j (CallSub lo hi)) \/ y_inside b = true /\ a = YIn b.
Definition publishes (w : syst) (u : usys) (w' : syst) : Prop :=
  exists j k x ps pn, uexec u (VCall j (CallPub k (Z.of_nat (length (y_pubs w))))) = Some (y_u w') /\ y_pubs w' = y_pubs w ++ [(k, x)] /\
    nth_error (y_ph w') j = Some (YHandle ((k, x) :: ps) pn).
Lemma publish_u : forall w j ps pn w', nth_error (y_ph w) j <> None -> y_publish w j ps pn = Some w' -> y_u w' = y_u w /\ y_pubs w' = y_pubs w \/ publishes w (y_u w) w'.
Proof.
  intros w j ps pn w' NN H. unfold y_publish in H. destruct ps as [|[k x] ps]; [injection H as <-; left; destruct pn; auto|].
  destruct (uexec _ _) as [u|] eqn:X; [|discriminate]. injection H as <-. right. exists j, k, x, ps, pn. split; [exact X|]. split; [reflexivity|]. cbn [y_ph].
  destruct (nth_error (y_ph w) j) eqn:N; [|congruence]. apply (upd_same _ _ _ _ _ N).
Qed.
Lemma yexec_u : forall bcast me w a w', yexec bcast me w a = Some w' ->
  exists u, (u = y_u w \/ exists b, uexec (y_u w) b = Some u /\ begun a b) /\ (y_u w' = u /\ y_pubs w' = y_pubs w \/ publishes w u w').
Proof.
  intros bcast me w a w' H. unfold yexec in H. destruct (y_dead w); [discriminate|].
  destruct a as [|j q|j src b known|j ok|j|j|j|a].
  - cbn [uexec] in H. injection H as <-. eexists. split; [right; exists VSpawn; split; [reflexivity|left; reflexivity]|]. left. auto.
  - destruct (nth_error (y_ph w) j) as [[]|]; try discriminate H. destruct (scan_frame _ _ _); [|injection H as <-; exists (y_u w); auto].
    destruct (uexec (y_u w) _) as [u|] eqn:X in H; [|discriminate]. injection H as <-. exists u. split; [right; eexists; split; [exact X|right; left; eauto]|]. left. auto.
  - destruct (nth_error (y_ph w) j) as [[]|] eqn:N; try discriminate H. destruct (handleMsg _ _ _) as [eff pn]. exists (y_u w). split; [auto|]. eapply publish_u; [|exact H]. congruence.
  - exists (y_u w). destruct (nth_error (y_ph w) j) as [[|q [] ?|q s st [] ?|q s st [] ?|]|]; try discriminate H; injection H as <-; auto.
  - exists (y_u w). destruct (nth_error (y_ph w) j) as [[|q [] ?|q s st [] ?|q s st [] ?|]|]; try discriminate H; injection H as <-; auto.
  - exists (y_u w). destruct (nth_error (y_ph w) j) as [[|q t ?|q s st t ?|q s st t ?|]|]; try discriminate H. destruct (_ && _); injection H as <-; auto.
  - exists (y_u w). destruct (nth_error (y_ph w) j) as [[|q t ?|q s st t ?|q s st [] ?|]|]; try discriminate H. injection H as <-. auto.
  - destruct (y_inside a) eqn:IN; [|discriminate]. destruct (uexec (y_u w) a) as [u|] eqn:X; [|discriminate]. exists u.
    split; [right; exists a; split; [exact X|right; right; auto]|].
    destruct (Nat.eqb _ _); [injection H as <-; auto|]. destruct (u_log u) as [|e t]; [injection H as <-; auto|].
    destruct e; cbn [y_returned] in H; try (injection H as <-; auto).
    + destruct (nth_error (y_ph (y_setu w u)) i) as [[| | | |[|? ps] b]|] eqn:N in H; try (injection H as <-; auto). cbn [y_setu y_ph] in N.
      destruct (publish_u (y_setu w u) i _ _ _ ltac:(cbn [y_setu y_ph]; congruence) H) as [K|K]; [left; exact K|right; exact K].
    + destruct (nth_error _ _) as [[| | | |]|] in H; injection H as <-; auto.
Qed.
(** nobody begins to publish without another publication *)
Lemma no_more : forall bcast me w a w', yexec bcast me w a = Some w' -> length (y_pubs w') = length (y_pubs w) ->
  (forall j p, nth_error (u_thr (y_u w)) j = Some p -> pub_key p = None) -> forall j p, nth_error (u_thr (y_u w')) j = Some p -> pub_key p = None.
Proof.
  intros bcast me w a w' H L NP. destruct (yexec_u _ _ _ _ _ H) as (u & U & V). destruct V as [[-> _]|(j & k & x & ps & pn & _ & P & _)]; [|rewrite P, app_length in L; cbn in L; lia].
  destruct U as [->|(b & X & B)]; [exact NP|]. intros j p N. destruct B as [->|[(j' & lo & hi & ->)|[IN _]]].
  - cbn [uexec] in X. injection X as <-. cbn [u_setthr u_thr] in N. destruct (nth_error (u_thr (y_u w)) j) as [p0|] eqn:N0.
    + rewrite nth_error_app1 in N by (apply nth_error_Some; congruence). eapply NP. eassumption.
    + rewrite nth_error_app2 in N by (apply nth_error_None; exact N0). destruct (j - _)%nat as [|[|?]]; cbn in N; try discriminate N. injection N as <-. reflexivity.
  - cbn [uexec] in X. destruct (nth_error (u_thr (y_u w)) j') as [[]|] eqn:N0; try discriminate X. injection X as <-. cbn [u_set u_thr uentry] in N.
    destruct (Nat.eq_dec j j') as [->|D]; [rewrite (upd_same _ _ _ _ _ N0) in N; injection N as <-; reflexivity|]. rewrite upd_other in N by congruence. eapply NP. eassumption.
  - destruct (inside_step _ _ _ IN X) as (i & p0 & p' & oe & N0 & N' & OT & _ & PS). destruct (Nat.eq_dec j i) as [->|D]; [|rewrite (OT _ D) in N; eapply NP; eassumption].
    rewrite N in N'. injection N' as <-. specialize (NP _ _ N0). destruct PS; try discriminate NP; try reflexivity; try congruence. destruct p'; try discriminate H1; reflexivity.
Qed.
Lemma pubs_grow : forall bcast me w a w', yexec bcast me w a = Some w' -> exists l, y_pubs w' = y_pubs w ++ l.
Proof. intros bcast me w a w' H. destruct (yexec_u _ _ _ _ _ H) as (u & _ & [[_ ->]|(j & k & x & ps & pn & _ & P & _)]); [exists []; symmetry; apply app_nil_r|eauto]. Qed.
Lemma pubs_step : forall bcast me t a t', texec bcast me t a = Some t' -> exists l, y_pubs (Yt t') = y_pubs (Yt t) ++ l.
Proof.
  intros bcast me t [a|d] t' E.
  - destruct (texec_do _ _ _ _ _ E) as (z & _ & Z & ->). cbn [set_z t_z]. destruct (zexec_y _ _ _ _ _ Z) as [->|(b & EY & _)]; [exists []; symmetry; apply app_nil_r|]. exact (pubs_grow _ _ _ _ _ EY).
  - cbn [texec] in E. destruct (0 <? d); [|discriminate]. injection E as <-. exists []. symmetry. apply app_nil_r.
Qed.
Lemma pubs_run : forall bcast me l t t', trun bcast me t l = Some t' -> (length (y_pubs (Yt t)) <= length (y_pubs (Yt t')))%nat.
Proof.
  intros bcast me l. induction l as [|a l IH]; intros t t' H; cbn [trun] in H; [injection H as <-; lia|].
  destruct (texec bcast me t a) as [t1|] eqn:E; [|discriminate]. destruct (pubs_step _ _ _ _ _ E) as (m & P). specialize (IH _ _ H). rewrite P, app_length in IH. lia.
Qed.

(** ** Two seconds of silence end a call *)
Definition quiet_since (a : Z) (t : timed) : Prop := t_now t = a \/ forall j p, nth_error (u_thr (Ut t)) j = Some p -> pub_key p = None.
Lemma quiet_step : forall bcast me t b t' a, texec bcast me t (TDo b) = Some t' -> length (y_pubs (Yt t')) = length (y_pubs (Yt t)) -> quiet_since a t -> quiet_since a t'.
Proof.
  intros bcast me t b t' a E L [K|K]; [left; rewrite (now_do _ _ _ _ _ E); exact K|right].
  destruct (texec_do _ _ _ _ _ E) as (z & _ & Z & ->). cbn [set_z t_z] in *. destruct (zexec_y _ _ _ _ _ Z) as [->|(b' & EY & _)]; [exact K|]. exact (no_more _ _ _ _ _ EY L K).
Qed.
(** the subscriber of a call *)
Definition sub_of (p : upc) : option nat := match p with SubReg _ _ s | SubTime s _ | SubWait s _ | SubRem s _ => Some s | _ => None end.
Lemma sub_exists : forall u i p s, uinv u -> nth_error (u_thr u) i = Some p -> sub_of p = Some s -> (s < length (u_objs u))%nat.
Proof. intros u i p s UI N S. apply (c_range _ UI i p s N). destruct p; try discriminate S; injection S as ->; left; reflexivity. Qed.
(** its last message is not later than [a] *)
Definition still (a : Z) (i : nat) (x : sphase) (p : upc) (t : timed) : Prop :=
  match x with
  | YSub _ _ _ =>
      match p with
      | SubNew _ _ => t_now t <= a
      | SubReg _ _ s => t_now t <= a /\ t_heard t s <= a
      | SubTime s _ => t_now t <= a + 2000 /\ t_heard t s <= a
      | SubWait s _ => t_now t <= a + 2000 /\ t_heard t s <= a /\ t_due t i <= a + 2000
      | _ => t_now t <= a + 2000
      end
  | _ => t_now t <= a + 2000
  end.
Lemma heard_still : forall bcast me t b t' i p s a, zreach bcast me (t_z t) -> texec bcast me t (TDo b) = Some t' -> quiet_since a t ->
  nth_error (u_thr (Ut t)) i = Some p -> sub_of p = Some s -> t_heard t s <= a -> t_heard t' s <= a.
Proof.
  intros bcast me t b t' i p s a RE E QU N S H. destruct (zreach_y _ _ _ RE) as (seen & I). pose proof (ureach_inv _ (y_reach _ _ I)) as UI. pose proof (sub_exists _ _ _ _ UI N S) as L.
  destruct (texec_do _ _ _ _ _ E) as (z & _ & _ & ->). cbn [set_z t_heard]. destruct (heard_step t b s) as [->|(-> & [K|(j & id & v & rest & _ & Nj)])]; [exact H|lia|].
  destruct QU as [QU|QU]; [lia|]. specialize (QU _ _ Nj). discriminate QU.
Qed.
Lemma still_step : forall bcast me t b t' i q x p a, zreach bcast me (t_z t) -> texec bcast me t (TDo b) = Some t' -> quiet_since a t -> scans i q t x p -> still a i x p t ->
  (exists x' p', scans i q t' x' p' /\ still a i x' p' t' /\ scans_of i t' = scans_of i t) \/ (exists f, sd_req f = q /\ scans_of i t' = f :: scans_of i t).
Proof.
  intros bcast me t b t' i q x p a RE E QU SC ST. pose proof (now_do _ _ _ _ _ E) as NW. pose proof (fun s => heard_still bcast me t b t' i p s a RE E QU (proj2 (proj2 SC))) as HS.
  destruct (scans_step _ _ _ _ _ _ _ _ _ RE E SC) as [(SC' & DU & EN & RO' & _)|[(b' & x' & p' & _ & H1 & SC' & OC & RO')|(b' & f & _ & _ & FQ & RO')]]; [left|left|right; eauto].
  - exists x, p. split; [exact SC'|]. split; [|exact RO']. destruct x; cbn [still] in *; try lia.
    destruct p; cbn [sub_of] in HS; try (specialize (HS _ eq_refl)); rewrite ?DU, ?NW in *; try lia; intuition.
  - exists x', p'. split; [exact SC'|]. split; [|exact RO']. destruct H1; cbn [still own_clocks sub_of] in *; try (specialize (HS _ eq_refl)); rewrite ?NW; try lia.
    assert (D : t_due t' i = t_due t i /\ t_end t' i = t_end t i) by (destruct H0 as [(ok & ->)| ->]; exact OC). destruct D as [D1 D2].
    destruct H; cbn [still] in *; try lia. destruct p; cbn [sub_of] in HS; try (specialize (HS _ eq_refl)); rewrite ?D1, ?NW in *; try lia; intuition.
Qed.
Definition stilled (a : Z) (i : nat) (q : scan) (old : list sdone) (t : timed) : Prop :=
  quiet_since a t /\ (exists x p, scans i q t x p /\ still a i x p t /\ scans_of i t = old) \/ (exists f d, scans_of i t = d ++ f :: old /\ sd_req f = q).
Lemma stilled_run : forall bcast me l t t' i q a old, zreach bcast me (t_z t) -> trun bcast me t l = Some t' -> prompt bcast me t l -> z_dead (t_z t') = false ->
  never_stuck bcast me i old t l -> length (y_pubs (Yt t')) = length (y_pubs (Yt t)) -> stilled a i q old t -> stilled a i q old t'.
Proof.
  intros bcast me l. induction l as [|b l IH]; intros t t' i q a old RE H PR LV NS L S; cbn [trun] in H; [injection H as <-; exact S|].
  destruct (texec bcast me t b) as [t1|] eqn:E; [|discriminate]. pose proof (live_back _ _ _ _ _ H LV) as LV1. cbn [SpecTime.prompt] in PR. destruct PR as [PA PR].
  assert (L1 : length (y_pubs (Yt t1)) = length (y_pubs (Yt t)) /\ length (y_pubs (Yt t')) = length (y_pubs (Yt t1))).
  { pose proof (pubs_run _ _ _ _ _ H). pose proof (pubs_run bcast me [b] t t1) as K. cbn [trun] in K. rewrite E in K. specialize (K eq_refl). lia. }
  apply (IH t1 t' i q a old (reach_step _ _ _ _ _ RE E) H (PR _ E) LV (never_stuck_tail _ _ _ _ _ _ _ _ E NS) (proj2 L1)).
  destruct S as [(QU & x & p & SC & HI & RO)|(f & d & RO & FQ)].
  - destruct b as [b|d].
    + destruct (still_step _ _ _ _ _ _ _ _ _ _ RE E QU SC HI) as [(x' & p' & SC' & ST' & RO')|(f & FQ & RO')].
      * left. split; [exact (quiet_step _ _ _ _ _ _ E (proj1 L1) QU)|]. exists x', p'. split; [exact SC'|]. split; [exact ST'|congruence].
      * right. exists f, []. split; [rewrite RO', RO; reflexivity|exact FQ].
    + assert (LV0 : z_dead (t_z t) = false) by (apply (live_back bcast me [TPass d] t t1); [cbn [trun]; rewrite E; reflexivity|exact LV1]).
      left. cbn [texec] in E. destruct (0 <? d) eqn:D; [|discriminate]. injection E as <-.
      destruct (idle_scan bcast me t d i q x p RE LV0 ltac:(lia) (PA d eq_refl) (never_stuck_now _ _ _ _ _ _ NS RO) SC) as (s & st & tx & e & -> & -> & DU & _ & _ & NP).
      split; [right; exact NP|]. exists (YSub q tx e), (SubWait s st). split; [exact SC|]. split; [|exact RO]. cbn [still t_now t_due t_heard] in *. lia.
  - right. destruct (scans_grow bcast me [b] t t1 i) as (d1 & RO1); [cbn [trun]; rewrite E; reflexivity|].
    exists f, (d1 ++ d). split; [rewrite RO1, RO, app_assoc; reflexivity|exact FQ].
Qed.
(** a call in progress waits at most until two seconds after the last message *)
Definition sane (i : nat) (x : sphase) (p : upc) (t : timed) : Prop :=
  match x, p with YSub _ _ _, SubWait s _ => t_due t i <= t_heard t s + 2000 /\ t_due t i <= t_end t i | _, _ => True end.
Definition saned (i : nat) (q : scan) (old : list sdone) (t : timed) : Prop :=
  (exists x p, scans i q t x p /\ sane i x p t /\ scans_of i t = old) \/ (exists f d, scans_of i t = d ++ f :: old /\ sd_req f = q).
Lemma saned_run : forall bcast me l t t' i q old, zreach bcast me (t_z t) -> trun bcast me t l = Some t' -> (forall s, t_heard t s <= t_now t) -> saned i q old t -> saned i q old t'.
Proof.
  intros bcast me l. induction l as [|a l IH]; intros t t' i q old RE H HN S; cbn [trun] in H; [injection H as <-; exact S|].
  destruct (texec bcast me t a) as [t1|] eqn:E; [|discriminate].
  apply (IH t1 t' i q old (reach_step _ _ _ _ _ RE E) H); [apply (heard_now bcast me [a] t t1); [cbn [trun]; rewrite E; reflexivity|exact HN]|].
  destruct S as [(x & p & SC & HI & RO)|(f & d & RO & FQ)].
  - destruct a as [a|d].
    + pose proof (now_do _ _ _ _ _ E) as NW.
      assert (HM : forall s, t_heard t s <= t_heard t1 s).
      { intros s. destruct (texec_do _ _ _ _ _ E) as (z & _ & _ & ->). cbn [set_z t_heard]. specialize (HN s). destruct (heard_step t a s) as [->|(-> & _)]; lia. }
      destruct (scans_step _ _ _ _ _ _ _ _ _ RE E SC) as [(SC' & DU & EN & RO' & _)|[(b & x' & p' & _ & H1 & SC' & OC & RO')|(b & f & _ & _ & FQ & RO')]].
      * left. exists x, p. split; [exact SC'|]. split; [|congruence]. destruct x; auto. destruct p; auto. cbn [sane] in *. specialize (HM s). lia.
      * left. exists x', p'. split; [exact SC'|]. split; [|congruence]. destruct H1; cbn [sane own_clocks] in *; auto.
        -- assert (D : t_due t1 i = t_due t i /\ t_end t1 i = t_end t i) by (destruct H1 as [(ok & ->)| ->]; exact OC).
           destruct H0; cbn [sane] in *; auto. destruct p; auto. specialize (HM s). lia.
        -- specialize (HM s). lia.
      * right. exists f, []. split; [rewrite RO', RO; reflexivity|exact FQ].
    + left. exists x, p. cbn [texec] in E. destruct (0 <? d) eqn:D; [|discriminate]. injection E as <-. auto.
  - right. destruct (scans_grow bcast me [a] t t1 i) as (d1 & RO1); [cbn [trun]; rewrite E; reflexivity|].
    exists f, (d1 ++ d). split; [rewrite RO1, RO, app_assoc; reflexivity|exact FQ].
Qed.
Lemma prompt_split : forall bcast me l1 l2 t t1, trun bcast me t l1 = Some t1 -> prompt bcast me t (l1 ++ l2) -> prompt bcast me t1 l2.
Proof.
  intros bcast me l1. induction l1 as [|a l1 IH]; intros l2 t t1 R P; cbn [trun] in R; [injection R as <-; exact P|].
  destruct (texec bcast me t a) as [t'|] eqn:E; [|discriminate]. cbn [app SpecTime.prompt] in P. exact (IH _ _ _ R (proj2 P _ E)).
Qed.
Lemma trun_cat : forall bcast me l1 l2 t, trun bcast me t (l1 ++ l2) = match trun bcast me t l1 with Some t' => trun bcast me t' l2 | None => None end.
Proof. intros bcast me l1. induction l1 as [|a l1 IH]; intros l2 t; [reflexivity|]. cbn [app trun]. destruct (texec bcast me t a); [apply IH|reflexivity]. Qed.
Lemma never_stuck_split : forall bcast me i old l1 l2 t t1, trun bcast me t l1 = Some t1 -> never_stuck bcast me i old t (l1 ++ l2) -> never_stuck bcast me i old t1 l2.
Proof. intros bcast me i old l1 l2 t t1 R NS la lb ta -> RA. apply (NS (l1 ++ la) lb ta (app_assoc _ _ _)). rewrite trun_cat, R. exact RA. Qed.
Lemma heard_run : forall bcast me l t, trun bcast me t_init l = Some t -> forall s, t_heard t s <= t_now t.
Proof. intros bcast me l t R. apply (heard_now _ _ _ _ _ R). intros s. cbn. lia. Qed.
Lemma scan_in_silence : forall bcast me l1 t0 i q t1 l2 tm l3 t2, trun bcast me t_init l1 = Some t0 -> texec bcast me t0 (TDo (ZScan i q)) = Some t1 ->
  trun bcast me t1 l2 = Some tm -> trun bcast me tm l3 = Some t2 -> prompt bcast me t1 (l2 ++ l3) -> z_dead (t_z t2) = false -> never_stuck bcast me i (scans_of i t0) t1 (l2 ++ l3) ->
  y_pubs (Yt t2) = y_pubs (Yt tm) -> 2000 < t_now t2 - t_now tm -> exists f d, scans_of i t2 = d ++ f :: scans_of i t0 /\ sd_req f = q.
Proof.
  intros bcast me l1 t0 i q t1 l2 tm l3 t2 R1 E R2 R3 PR LV NS PE LI. pose proof (reach_run _ _ _ _ _ (reach_init bcast me) R1) as RE.
  pose proof (live_back _ _ _ _ _ R3 LV) as LVm. destruct (scan_starts _ _ _ _ _ _ E (live_back _ _ _ _ _ R2 LVm)) as (SC & NW & RO1).
  pose proof (reach_step _ _ _ _ _ RE E) as RE1. pose proof (reach_run _ _ _ _ _ RE1 R2) as REm.
  assert (RT1 : trun bcast me t_init (l1 ++ [TDo (ZScan i q)]) = Some t1) by (rewrite trun_cat, R1; cbn [trun]; rewrite E; reflexivity).
  assert (RTm : trun bcast me t_init ((l1 ++ [TDo (ZScan i q)]) ++ l2) = Some tm) by (rewrite trun_cat, RT1; exact R2).
  pose proof (heard_run _ _ _ _ RT1) as H1. pose proof (heard_run _ _ _ _ RTm) as Hm.
  assert (S1 : saned i q (scans_of i t0) t1) by (left; do 2 eexists; split; [exact SC|]; split; [exact Logic.I|exact RO1]).
  assert (SM : stilled (t_now tm) i q (scans_of i t0) tm).
  { destruct (saned_run _ _ _ _ _ _ _ _ RE1 R2 H1 S1) as [(x & p & SCm & SA & RO)|K]; [left|right; exact K]. split; [left; reflexivity|]. exists x, p. split; [exact SCm|]. split; [|exact RO].
    destruct x; cbn [still sane] in *; try lia. destruct p; try lia; specialize (Hm s); lia. }
  destruct (stilled_run _ _ _ _ _ _ _ _ _ REm R3 (prompt_split _ _ _ _ _ _ R2 PR) LV (never_stuck_split _ _ _ _ _ _ _ _ R2 NS) (f_equal (@length _) PE) SM) as [(_ & x & p & (N & Q & Np) & HI & _)|K]; [|exact K]. exfalso.
  destruct x; try discriminate Q; cbn [still] in HI; try lia. destruct p; lia.
Qed.

(** ** A call listens for two seconds at least *)
Lemma heard_mono : forall bcast me t a t', texec bcast me t (TDo a) = Some t' -> (forall s, t_heard t s <= t_now t) -> forall s, t_heard t s <= t_heard t' s.
Proof.
  intros bcast me t a t' E HN s. destruct (texec_do _ _ _ _ _ E) as (z & _ & _ & ->). cbn [set_z t_heard]. specialize (HN s). destruct (heard_step t a s) as [->|(-> & _)]; lia.
Qed.
Definition slow (c : Z) (i : nat) (x : sphase) (p : upc) (t : timed) : Prop :=
  c <= t_now t /\
  match x with
  | YSub _ _ _ =>
      match p with
      | SubReg _ _ s => c <= t_heard t s
      | SubTime s _ => c <= t_heard t s /\ c + 10000 <= t_end t i
      | SubWait s _ => c <= t_heard t s /\ c + 10000 <= t_end t i /\ c + 2000 <= t_due t i
      | SubRem _ _ => c + 2000 <= t_now t
      | _ => True
      end
  | _ => c + 2000 <= t_now t
  end.
Lemma slow_step : forall bcast me t b t' i q x p c, zreach bcast me (t_z t) -> texec bcast me t (TDo b) = Some t' -> (forall s, t_heard t s <= t_now t) -> scans i q t x p -> slow c i x p t ->
  (exists x' p', scans i q t' x' p' /\ slow c i x' p' t' /\ scans_of i t' = scans_of i t) \/ (exists f, sd_req f = q /\ sd_store f = held x /\ in_sub x = false /\ scans_of i t' = f :: scans_of i t).
Proof.
  intros bcast me t b t' i q x p c RE E HN SC [CN ST]. pose proof (now_do _ _ _ _ _ E) as NW. pose proof (heard_mono _ _ _ _ _ E HN) as HM.
  destruct (scans_step _ _ _ _ _ _ _ _ _ RE E SC) as [(SC' & DU & EN & RO' & _)|[(b' & x' & p' & _ & H1 & SC' & OC & RO')|(b' & f & _ & EN & FQ & RO')]].
  - left. exists x, p. split; [exact SC'|]. split; [|exact RO']. split; [lia|]. destruct x; try lia.
    destruct p; rewrite ?DU, ?EN, ?NW in *; try lia; auto; specialize (HM s); lia.
  - left. exists x', p'. split; [exact SC'|]. split; [|exact RO']. split; [lia|]. destruct H1; cbn [own_clocks] in *; rewrite ?NW; try lia; try (specialize (HM s); lia); auto.
    assert (D : t_due t' i = t_due t i /\ t_end t' i = t_end t i) by (destruct H0 as [(ok & ->)| ->]; exact OC). destruct D as [D1 D2].
    destruct H; try lia. destruct p; rewrite ?D1, ?D2, ?NW in *; try lia; auto; specialize (HM s); lia.
  - right. exists f. split; [exact FQ|]. destruct EN as (_ & IS & _ & _ & H & _). auto.
Qed.
Lemma slow_pass : forall c i x p t d, 0 < d -> slow c i x p t -> slow c i x p (mkT (t_z t) (t_now t + d) (t_due t) (t_end t) (t_heard t)).
Proof. intros c i x p t d D [A B]. split; [cbn [t_now]; lia|]. destruct x; cbn [t_now t_due t_end t_heard] in *; try lia. destruct p; try lia; exact B. Qed.
Definition slowed (c : Z) (i : nat) (q : scan) (old : list sdone) (t : timed) : Prop :=
  (exists x p, scans i q t x p /\ slow c i x p t /\ scans_of i t = old) \/ (exists f d, scans_of i t = d ++ f :: old /\ c + 2000 <= t_now t).
Lemma slowed_run : forall bcast me l t t' i q c old, zreach bcast me (t_z t) -> trun bcast me t l = Some t' -> (forall s, t_heard t s <= t_now t) -> slowed c i q old t -> slowed c i q old t'.
Proof.
  intros bcast me l. induction l as [|a l IH]; intros t t' i q c old RE H HN S; cbn [trun] in H; [injection H as <-; exact S|].
  destruct (texec bcast me t a) as [t1|] eqn:E; [|discriminate].
  apply (IH t1 t' i q c old (reach_step _ _ _ _ _ RE E) H); [apply (heard_now bcast me [a] t t1); [cbn [trun]; rewrite E; reflexivity|exact HN]|].
  destruct S as [(x & p & SC & HI & RO)|(f & d & RO & FQ)].
  - destruct a as [a|d].
    + destruct (slow_step _ _ _ _ _ _ _ _ _ _ RE E HN SC HI) as [(x' & p' & SC' & ST' & RO')|(f & FQ & _ & IS & RO')].
      * left. exists x', p'. split; [exact SC'|]. split; [exact ST'|congruence].
      * right. exists f, []. split; [rewrite RO', RO; reflexivity|]. rewrite (now_do _ _ _ _ _ E). destruct HI as [_ HI]. destruct SC as (_ & Q & _). destruct x; try discriminate Q; try discriminate IS; exact HI.
    + left. exists x, p. cbn [texec] in E. destruct (0 <? d) eqn:D; [|discriminate]. injection E as <-. split; [exact SC|]. split; [apply slow_pass; [lia|exact HI]|exact RO].
  - right. destruct (scans_grow bcast me [a] t t1 i) as (d1 & RO1); [cbn [trun]; rewrite E; reflexivity|].
    exists f, (d1 ++ d). split; [rewrite RO1, RO, app_assoc; reflexivity|]. pose proof (now_step _ _ _ _ _ E). lia.
Qed.
Lemma scan_begin : forall bcast me l1 t0 i q t1, trun bcast me t_init l1 = Some t0 -> texec bcast me t0 (TDo (ZScan i q)) = Some t1 -> z_dead (t_z t1) = false ->
  zreach bcast me (t_z t1) /\ (forall s, t_heard t1 s <= t_now t1) /\ t_now t1 = t_now t0 /\ scans_of i t1 = scans_of i t0 /\
  scans i q t1 (YSub q TNot false) (SubNew (fst (scan_range q)) (snd (scan_range q))) /\ slow (t_now t0) i (YSub q TNot false) (SubNew (fst (scan_range q)) (snd (scan_range q))) t1.
Proof.
  intros bcast me l1 t0 i q t1 R1 E LV. pose proof (reach_run _ _ _ _ _ (reach_init bcast me) R1) as RE. split; [exact (reach_step _ _ _ _ _ RE E)|].
  destruct (scan_starts _ _ _ _ _ _ E LV) as (SC & NW & RO1). split.
  - apply (heard_run bcast me (l1 ++ [TDo (ZScan i q)])). rewrite trun_cat, R1. cbn [trun]. rewrite E. reflexivity.
  - split; [exact NW|]. split; [exact RO1|]. split; [exact SC|]. split; [lia|exact Logic.I].
Qed.
Lemma cons_fits : forall {A} (d d' : list A) f f' l, d ++ f :: l = d' ++ f' :: l -> f = f'.
Proof.
  intros A d d' f f' l H. replace (d ++ f :: l) with ((d ++ [f]) ++ l) in H by (rewrite <- app_assoc; reflexivity). replace (d' ++ f' :: l) with ((d' ++ [f']) ++ l) in H by (rewrite <- app_assoc; reflexivity).
  apply app_inv_tail in H. apply app_inj_tail in H. apply H.
Qed.
Lemma cons_more : forall {A} (d : list A) f l, d ++ f :: l <> l.
Proof. intros A d f l H. apply (f_equal (@length A)) in H. rewrite app_length in H. cbn in H. lia. Qed.
Lemma scan_never_early : forall bcast me l1 t0 i q t1 l2 t2 f d, trun bcast me t_init l1 = Some t0 -> texec bcast me t0 (TDo (ZScan i q)) = Some t1 ->
  trun bcast me t1 l2 = Some t2 -> z_dead (t_z t2) = false -> scans_of i t2 = d ++ f :: scans_of i t0 -> t_now t0 + 2000 <= t_now t2.
Proof.
  intros bcast me l1 t0 i q t1 l2 t2 f d R1 E R2 LV RO. destruct (scan_begin _ _ _ _ _ _ _ R1 E (live_back _ _ _ _ _ R2 LV)) as (RE & HN & NW & RO1 & SC & SL).
  assert (S : slowed (t_now t0) i q (scans_of i t0) t1) by (left; do 2 eexists; eauto).
  destruct (slowed_run _ _ _ _ _ _ _ _ _ RE R2 HN S) as [(x & p & _ & _ & K)|(f' & d' & _ & K)]; [|exact K]. rewrite RO in K. destruct (cons_more _ _ _ K).
Qed.

(** ** and two seconds more after what it returns *)
(** publication [v] is at the channel of subscriber [s] or in it *)
Definition touches (u : usys) (s : nat) (v : Z) : Prop := (exists j id rest, nth_error (u_thr u) j = Some (PubSend id v s rest)) \/ In v (queue u s).
Lemma queue_upd : forall (l : list sub) s s' x y, nth_error l s = Some x -> sb_q y = sb_q x ->
  match nth_error (upd l s y) s' with Some z => sb_q z | None => [] end = match nth_error l s' with Some z => sb_q z | None => [] end.
Proof.
  intros l s s' x y N Q. destruct (Nat.eq_dec s' s) as [->|D]; [rewrite (upd_same _ _ _ _ _ N), N; exact Q|]. rewrite upd_other by congruence. reflexivity.
Qed.
Lemma touch_u : forall u a u' s v, uinv u -> uexec u a = Some u' -> touches u' s v -> touches u s v \/ exists j id rest, a = VStep j /\ nth_error (u_thr u) j = Some (PubSub id v s rest).
Proof.
  intros u a u' s v UI X T.
  uexec_cases X; destruct T as [(j & id0 & rest0 & T)|T]; ufields; unfold queue in T; ufields.
  all: try (match goal with T : nth_error (upd _ ?i _) ?j = Some (PubSend _ _ _ _) |- _ => destruct (Nat.eq_dec j i) as [->|D]; [erewrite upd_same in T by eassumption; try discriminate T; injection T as <- <- <- <-; right; eauto 6; fail|left; rewrite upd_other in T by congruence; left; eauto; fail] end).
  all: try (match goal with T : In _ _ |- _ => left; right; unfold queue; first [exact T | erewrite queue_upd in T by (try eassumption; reflexivity); exact T] end).
  - left. left. destruct (nth_error (u_thr u) j) as [p0|] eqn:N0.
    + rewrite nth_error_app1 in T by (apply nth_error_Some; congruence). rewrite N0 in T. injection T as ->. eauto.
    + rewrite nth_error_app2 in T by (apply nth_error_None; exact N0). destruct (j - _)%nat as [|[|?]]; discriminate T.
  - destruct (Nat.eq_dec j i) as [->|D]; [erewrite upd_same in T by eassumption; destruct o; discriminate T|left; rewrite upd_other in T by congruence; left; eauto].
  - left. destruct (Nat.eq_dec s s0) as [->|D].
    + rewrite (upd_same _ _ _ _ _ Hob) in T. cbn [sb_q] in T. apply in_app_or in T. destruct T as [T|[<-|[]]]; [right; unfold queue; rewrite Hob; exact T|left; eauto].
    + rewrite upd_other in T by congruence. right. exact T.
  - left. right. unfold queue. destruct (Nat.lt_ge_cases s (length (u_objs u))) as [L|L]; [rewrite nth_error_app1 in T by exact L; exact T|].
    rewrite nth_error_app2 in T by exact L. destruct (s - _)%nat as [|[|?]]; destruct T.
  - left. right. unfold queue. match type of Hob with nth_error _ ?s0 = Some ?x => destruct (Nat.eq_dec s s0) as [->|D]; [|rewrite upd_other in T by congruence; exact T] end.
    rewrite (upd_same _ _ _ _ _ Hob) in T. rewrite Hob. cbn [sb_q] in T. match goal with Q : sb_q _ = _ |- _ => rewrite Q end. right. exact T.
Qed.
Lemma touch_y : forall bcast me seen w a w' s v, yinv seen w -> yexec bcast me w a = Some w' -> touches (y_u w') s v ->
  touches (y_u w) s v \/ exists j id rest, a = YIn (VStep j) /\ nth_error (u_thr (y_u w)) j = Some (PubSub id v s rest).
Proof.
  intros bcast me seen w a w' s v I H T. pose proof (y_reach _ _ I) as R. destruct (yexec_u _ _ _ _ _ H) as (u & U & V).
  assert (RU : ureachable u) by (destruct U as [->|(b & X & _)]; [exact R|exact (ureach_step _ _ _ R X)]).
  assert (TU : touches u s v).
  { destruct V as [[<- _]|(j & k & x & ps & pn & X & _)]; [exact T|]. destruct (touch_u _ _ _ _ _ (ureach_inv _ RU) X T) as [K|(j' & id & rest & K & _)]; [exact K|discriminate K]. }
  destruct U as [->|(b & X & B)]; [auto|]. destruct (touch_u _ _ _ _ _ (ureach_inv _ R) X TU) as [K|(j & id & rest & -> & N)]; [auto|].
  right. exists j, id, rest. split; [|exact N]. destruct B as [B|[(? & ? & ? & B)|[_ ->]]]; [discriminate B|discriminate B|reflexivity].
Qed.
Definition timely (n0 a : Z) (t : timed) (s : nat) : Prop := forall v, n0 <= v -> touches (Ut t) s v -> a <= t_heard t s.
Lemma timely_step : forall bcast me t b t' n0 a s, zreach bcast me (t_z t) -> texec bcast me t (TDo b) = Some t' -> (forall s, t_heard t s <= t_now t) -> a <= t_now t ->
  timely n0 a t s -> timely n0 a t' s.
Proof.
  intros bcast me t b t' n0 a s RE E HN AN TI v L T. pose proof (heard_mono _ _ _ _ _ E HN s) as HM. destruct (zreach_y _ _ _ RE) as (seen & I).
  destruct (texec_do _ _ _ _ _ E) as (z & _ & Z & ->). cbn [set_z t_z t_heard] in *. destruct (zexec_y _ _ _ _ _ Z) as [K|(b' & EY & B)]; [rewrite K in T; specialize (TI v L T); lia|].
  destruct (touch_y _ _ _ _ _ _ _ _ I EY T) as [K|(j & id & rest & -> & N)]; [specialize (TI v L K); lia|].
  destruct b as [|? ?|? ?|? ? ?|?|?|b]; try discriminate B; try (destruct B; fail). destruct B as [<- _]. cbn [clocks]. rewrite N. cbn [clock_utsm set_heard t_heard]. rewrite at_same. exact AN.
Qed.
Lemma fresh_untouched : forall u s v, uinv u -> (length (u_objs u) <= s)%nat -> ~ touches u s v.
Proof.
  intros u s v UI L [(j & id & rest & N)|Q].
  - destruct (obj_of u s UI (d_held _ UI _ _ s N eq_refl)) as (x & O). apply nth_error_None in L. congruence.
  - unfold queue in Q. apply nth_error_None in L. rewrite L in Q. destruct Q.
Qed.
Definition late (n0 a c : Z) (i : nat) (x : sphase) (p : upc) (t : timed) : Prop :=
  match x with
  | YSub _ _ _ =>
      match p with
      | SubReg _ _ s => timely n0 a t s
      | SubTime s st => timely n0 a t s /\ forall v, n0 <= v -> In v st -> a <= t_heard t s
      | SubWait s st => timely n0 a t s /\ forall v, n0 <= v -> In v st -> a <= t_heard t s /\ Z.min (c + 10000) (a + 2000) <= t_due t i
      | SubRem s st => forall v, n0 <= v -> In v st -> Z.min (c + 10000) (a + 2000) <= t_now t
      | _ => True
      end
  | _ => forall v, n0 <= v -> In v (held x) -> Z.min (c + 10000) (a + 2000) <= t_now t
  end.
Lemma late_step : forall bcast me t b t' i q x p n0 a c, zreach bcast me (t_z t) -> texec bcast me t (TDo b) = Some t' -> (forall s, t_heard t s <= t_now t) -> a <= t_now t ->
  scans i q t x p -> slow c i x p t -> late n0 a c i x p t ->
  (exists x' p', scans i q t' x' p' /\ slow c i x' p' t' /\ late n0 a c i x' p' t' /\ scans_of i t' = scans_of i t) \/ (exists f, sd_req f = q /\ sd_store f = held x /\ in_sub x = false /\ scans_of i t' = f :: scans_of i t).
Proof.
  intros bcast me t b t' i q x p n0 a c RE E HN AN SC SL LA. pose proof (slow_step _ _ _ _ _ _ _ _ _ _ RE E HN SC SL) as SS.
  destruct SS as [(x1 & p1 & SC1 & SL1 & RO1)|K]; [left|right; exact K].
  pose proof (now_do _ _ _ _ _ E) as NW. pose proof (heard_mono _ _ _ _ _ E HN) as HM. pose proof (fun s => timely_step _ _ _ _ _ n0 a s RE E HN AN) as TS.
  exists x1, p1. split; [exact SC1|]. split; [exact SL1|]. split; [|exact RO1].
  destruct (scans_step _ _ _ _ _ _ _ _ _ RE E SC) as [(SC' & DU & EN & RO' & _)|[(b' & x' & p' & -> & H1 & SC' & OC & RO')|(b' & f & _ & EN & FQ & RO')]].
  - assert (K : x1 = x /\ p1 = p) by (destruct SC1 as (A & _ & B); destruct SC' as (A' & _ & B'); split; congruence). destruct K as [-> ->].
    destruct x; cbn [late] in *; rewrite ?NW; try exact LA. destruct p; rewrite ?NW, ?DU; try exact LA.
    + exact (TS _ LA).
    + destruct LA as [L1 L2]. split; [exact (TS _ L1)|]. intros v V W. specialize (L2 v V W). specialize (HM s). lia.
    + destruct LA as [L1 L2]. split; [exact (TS _ L1)|]. intros v V W. destruct (L2 v V W). specialize (HM s). lia.
  - assert (K : x1 = x' /\ p1 = p') by (destruct SC1 as (A & _ & B); destruct SC' as (A' & _ & B'); split; congruence). destruct K as [-> ->].
    destruct H1; cbn [late own_clocks held] in *; rewrite ?NW; try exact LA.
    + assert (D : t_due t' i = t_due t i /\ t_end t' i = t_end t i) by (destruct H0 as [(ok & ->)| ->]; exact OC). destruct D as [D1 D2].
      destruct H; cbn [late held] in *; rewrite ?NW; try exact LA. destruct p; rewrite ?NW, ?D1; try exact LA.
      * exact (TS _ LA).
      * destruct LA as [L1 L2]. split; [exact (TS _ L1)|]. intros v V W. specialize (L2 v V W). specialize (HM s). lia.
      * destruct LA as [L1 L2]. split; [exact (TS _ L1)|]. intros v V W. destruct (L2 v V W). specialize (HM s). lia.
    + destruct (zreach_y _ _ _ RE) as (seen & I). intros v V T. rewrite OC. exact AN.
    + split; [exact (TS _ LA)|]. intros v V [].
    + destruct LA as [L1 L2]. split; [exact (TS _ L1)|]. intros v V W. specialize (L2 v V W). specialize (HM s). destruct SL as [_ SL]. lia.
    + destruct LA as [L1 L2]. split; [exact (TS _ L1)|]. specialize (HM s). intros v' V W. apply in_app_or in W. destruct W as [W|[<-|[]]]; [destruct (L2 v' V W); lia|].
      assert (T : touches (Ut t) s v) by (right; rewrite H; left; reflexivity). specialize (L1 v V T). lia.
    + destruct LA as [L1 L2]. intros v V W. destruct (L2 v V W). lia.
  - exfalso. rewrite RO' in RO1. exact (cons_more [] f _ RO1).
Qed.
Lemma pub_number : forall seen w j p k v, yinv seen w -> nth_error (u_thr (y_u w)) j = Some p -> pub_key p = Some (k, v) -> v < Z.of_nat (length (y_pubs w)).
Proof.
  intros seen w j p k v I N K. destruct (publisher_handles _ _ _ _ I N) as (ps & b & H); [congruence|]. pose proof (y_phs _ _ I j) as P. unfold phase_ok in P. rewrite H, N in P.
  destruct ps as [|[k0 x] ps]; [destruct P|]. destruct P as (v0 & K0 & V & NP). rewrite K in K0. injection K0 as <- <-.
  assert (Z.to_nat v < length (y_pubs w))%nat by (apply nth_error_Some; congruence). lia.
Qed.
Lemma meant_number : forall seen w s l lo hi m v, yinv seen w -> (forall e, In e l -> In e (u_log (y_u w))) -> meant_for s l = Some (lo, hi, m) -> In v m -> v < Z.of_nat (length (y_pubs w)).
Proof.
  intros seen w s l lo hi m v I SUB M V. destruct (meant_in _ _ _ _ _ _ M V) as (j & k & IN & _). destruct (y_logged _ _ I _ _ _ (SUB _ IN)) as (P & x & N).
  assert (Z.to_nat v < length (y_pubs w))%nat by (apply nth_error_Some; congruence). lia.
Qed.
Lemma late_now : forall bcast me t i q x p a c, zreach bcast me (t_z t) -> scans i q t x p -> late (Z.of_nat (length (y_pubs (Yt t)))) a c i x p t.
Proof.
  intros bcast me t i q x p a c RE (N & Q & Np). destruct (zreach_y _ _ _ RE) as (seen & I). pose proof (ureach_inv _ (y_reach _ _ I)) as UI.
  set (n0 := Z.of_nat (length (y_pubs (Yt t)))).
  assert (PS : forall s v, n0 <= v -> (exists j id rest, nth_error (u_thr (Ut t)) j = Some (PubSend id v s rest)) -> False).
  { intros s v L (j & id & rest & K). pose proof (pub_number _ _ _ _ _ _ I K eq_refl). unfold n0 in L. lia. }
  assert (RC : forall s st, receiving p = Some (s, st) -> (forall v, n0 <= v -> In v st \/ In v (queue (Ut t) s) -> False)).
  { intros s st R v L V. destruct (e_sub _ UI _ _ _ _ Np R) as (sx & O & M). assert (W : In v (st ++ sb_q sx ++ pend (current (Ut t)) s sx)).
    { unfold queue in V. rewrite O in V. rewrite !in_app_iff. tauto. }
    pose proof (meant_number _ _ _ _ _ _ _ v I (fun e H => H) M W). unfold n0 in L. lia. }
  pose proof (y_phs _ _ I i) as PO. unfold phase_ok in PO. rewrite N, Np in PO.
  assert (HD : forall s st, call_returned (Yt t) i q s st -> forall v, n0 <= v -> In v st -> False).
  { intros s st (l1 & l2 & rest & L & _ & M & _) v V W. assert (IN : In v (st ++ rest)) by (apply in_or_app; auto).
    pose proof (meant_number _ _ _ l2 _ _ _ v I ltac:(intros e H; rewrite L; apply in_or_app; right; right; exact H) M IN). unfold n0 in V. lia. }
  destruct x as [|q' tx e|q' s st tx e|q' s st tx e|]; try discriminate Q; injection Q as ->; cbn [late held].
  - destruct p; try exact Logic.I.
    + intros v L [T|T]; [destruct (PS _ _ L T)|]. exfalso. destruct (Nat.lt_ge_cases s (length (u_objs (Ut t)))) as [B|B]; [|exact (fresh_untouched _ _ v UI B (or_intror T))].
      unfold queue in T. destruct (nth_error (u_objs (Ut t)) s) as [sx|] eqn:O; [|destruct T]. destruct (c_fresh _ UI _ _ _ _ _ Np O) as (K & _). rewrite K in T. destruct T.
    + split; [intros v L [T|T]; exfalso; [exact (PS _ _ L T)|exact (RC _ _ eq_refl v L (or_intror T))]|]. intros v L W. destruct (RC _ _ eq_refl v L (or_introl W)).
    + split; [intros v L [T|T]; exfalso; [exact (PS _ _ L T)|exact (RC _ _ eq_refl v L (or_intror T))]|]. intros v L W. destruct (RC _ _ eq_refl v L (or_introl W)).
    + intros v L W. destruct (RC _ _ eq_refl v L (or_introl W)).
  - destruct p; try (destruct PO; fail). intros v L W. destruct (HD _ _ (proj2 PO) v L W).
  - destruct p; try (destruct PO; fail). intros v L W. destruct (HD _ _ (proj2 PO) v L W).
Qed.
Definition lated (n0 a c : Z) (i : nat) (q : scan) (old : list sdone) (t : timed) : Prop :=
  a <= t_now t /\
  ((exists x p, scans i q t x p /\ slow c i x p t /\ late n0 a c i x p t /\ scans_of i t = old) \/
   (exists f d, scans_of i t = d ++ f :: old /\ forall v, n0 <= v -> In v (sd_store f) -> Z.min (c + 10000) (a + 2000) <= t_now t)).
Lemma lated_run : forall bcast me l t t' i q n0 a c old, zreach bcast me (t_z t) -> trun bcast me t l = Some t' -> (forall s, t_heard t s <= t_now t) -> lated n0 a c i q old t -> lated n0 a c i q old t'.
Proof.
  intros bcast me l. induction l as [|b l IH]; intros t t' i q n0 a c old RE H HN [AN S]; cbn [trun] in H; [injection H as <-; split; assumption|].
  destruct (texec bcast me t b) as [t1|] eqn:E; [|discriminate].
  apply (IH t1 t' i q n0 a c old (reach_step _ _ _ _ _ RE E) H); [apply (heard_now bcast me [b] t t1); [cbn [trun]; rewrite E; reflexivity|exact HN]|].
  split; [pose proof (now_step _ _ _ _ _ E); lia|].
  destruct S as [(x & p & SC & SL & HI & RO)|(f & d & RO & FQ)].
  - destruct b as [b|d].
    + destruct (late_step _ _ _ _ _ _ _ _ _ _ _ _ RE E HN AN SC SL HI) as [(x' & p' & SC' & SL' & ST' & RO')|(f & FQ & FS & IS & RO')].
      * left. exists x', p'. split; [exact SC'|]. split; [exact SL'|]. split; [exact ST'|congruence].
      * right. exists f, []. split; [rewrite RO', RO; reflexivity|]. rewrite (now_do _ _ _ _ _ E), FS. destruct SC as (_ & Q & _). destruct x; try discriminate Q; try discriminate IS; exact HI.
    + left. exists x, p. cbn [texec] in E. destruct (0 <? d) eqn:D; [|discriminate]. injection E as <-. split; [exact SC|]. split; [apply slow_pass; [lia|exact SL]|]. split; [|exact RO].
      destruct x; cbn [late t_now t_due t_heard] in *; try (intros v V W; specialize (HI v V W); lia). destruct p; try exact HI. intros v V W. specialize (HI v V W). lia.
  - right. destruct (scans_grow bcast me [b] t t1 i) as (d1 & RO1); [cbn [trun]; rewrite E; reflexivity|].
    exists f, (d1 ++ d). split; [rewrite RO1, RO, app_assoc; reflexivity|]. pose proof (now_step _ _ _ _ _ E). intros v V W. specialize (FQ v V W). lia.
Qed.
Lemma slows_run : forall bcast me l t t' i q c old, zreach bcast me (t_z t) -> trun bcast me t l = Some t' -> (forall s, t_heard t s <= t_now t) ->
  (exists x p, scans i q t x p /\ slow c i x p t /\ scans_of i t = old) ->
  (exists x p, scans i q t' x p /\ slow c i x p t' /\ scans_of i t' = old) \/ exists f d, scans_of i t' = d ++ f :: old /\ forall v, In v (sd_store f) -> v < Z.of_nat (length (y_pubs (Yt t'))).
Proof.
  intros bcast me l. induction l as [|a l IH]; intros t t' i q c old RE H HN S; cbn [trun] in H; [injection H as <-; left; exact S|].
  destruct (texec bcast me t a) as [t1|] eqn:E; [|discriminate].
  assert (HN1 : forall s, t_heard t1 s <= t_now t1) by (apply (heard_now bcast me [a] t t1); [cbn [trun]; rewrite E; reflexivity|exact HN]).
  pose proof (reach_step _ _ _ _ _ RE E) as RE1. destruct S as (x & p & SC & HI & RO). destruct a as [a|d].
  - destruct (slow_step _ _ _ _ _ _ _ _ _ _ RE E HN SC HI) as [(x' & p' & SC' & ST' & RO')|(f & FQ & FS & IS & RO')].
    + apply (IH t1 t' i q c old RE1 H HN1). exists x', p'. split; [exact SC'|]. split; [exact ST'|congruence].
    + right. destruct (scans_grow _ _ _ _ _ i H) as (d & RO2). exists f, d. split; [rewrite RO2, RO', RO; reflexivity|]. intros v V. rewrite FS in V.
      pose proof (late_now bcast me t i q x p (t_now t + 1) (t_now t) RE SC) as LA. destruct (Z_lt_ge_dec v (Z.of_nat (length (y_pubs (Yt t))))) as [L|L].
      * pose proof (pubs_run bcast me [TDo a] t t1) as P1. cbn [trun] in P1. rewrite E in P1. specialize (P1 eq_refl). pose proof (pubs_run _ _ _ _ _ H). lia.
      * exfalso. destruct SC as (_ & Q & _). assert (K : Z.min (t_now t + 10000) (t_now t + 1 + 2000) <= t_now t); [|lia].
        destruct x; try discriminate Q; try discriminate IS; apply (LA v); auto; lia.
  - apply (IH t1 t' i q c old RE1 H HN1). exists x, p. cbn [texec] in E. destruct (0 <? d) eqn:D; [|discriminate]. injection E as <-. split; [exact SC|]. split; [apply slow_pass; [lia|exact HI]|exact RO].
Qed.
Lemma scan_stays : forall bcast me l1 t0 i q t1 l2 tm l3 t2 f d v, trun bcast me t_init l1 = Some t0 -> texec bcast me t0 (TDo (ZScan i q)) = Some t1 ->
  trun bcast me t1 l2 = Some tm -> trun bcast me tm l3 = Some t2 -> z_dead (t_z t2) = false -> scans_of i t2 = d ++ f :: scans_of i t0 ->
  In v (sd_store f) -> Z.of_nat (length (y_pubs (Yt tm))) <= v -> Z.min (t_now t0 + 10000) (t_now tm + 2000) <= t_now t2.
Proof.
  intros bcast me l1 t0 i q t1 l2 tm l3 t2 f d v R1 E R2 R3 LV RO V L. destruct (scan_begin _ _ _ _ _ _ _ R1 E (live_back _ _ _ _ _ R2 (live_back _ _ _ _ _ R3 LV))) as (RE & HN & NW & RO1 & SC & SL).
  assert (HM : forall s, t_heard tm s <= t_now tm) by exact (heard_now _ _ _ _ _ R2 HN). pose proof (reach_run _ _ _ _ _ RE R2) as REm.
  destruct (slows_run _ _ _ _ _ i q (t_now t0) (scans_of i t0) RE R2 HN) as [(x & p & SCm & SLm & ROm)|(f' & d' & ROm & NV)]; [do 2 eexists; eauto| |].
  - assert (S : lated (Z.of_nat (length (y_pubs (Yt tm)))) (t_now tm) (t_now t0) i q (scans_of i t0) tm).
    { split; [lia|]. left. exists x, p. split; [exact SCm|]. split; [exact SLm|]. split; [exact (late_now _ _ _ _ _ _ _ _ _ REm SCm)|exact ROm]. }
    destruct (lated_run _ _ _ _ _ _ _ _ _ _ _ REm R3 HM S) as (_ & [(x' & p' & _ & _ & _ & K)|(f' & d' & K & KV)]); rewrite RO in K; [destruct (cons_more _ _ _ K)|].
    apply cons_fits in K. subst f'. exact (KV v L V).
  - exfalso. destruct (scans_grow _ _ _ _ _ i R3) as (d3 & G). rewrite RO, ROm, app_assoc in G. apply cons_fits in G. subst f'. specialize (NV v V). lia.
Qed.

(** ** What arrives while a call listens is in its result *)
(** a handler has still to make this publication *)
Definition underway (m : Z * pub) (w : syst) : Prop :=
  (exists j m0 ps b, nth_error (y_ph w) j = Some (YHandle (m0 :: ps) b) /\ In m ps) \/
  (exists j v ps b, nth_error (y_ph w) j = Some (YHandle (m :: ps) b) /\ nth_error (u_thr (y_u w)) j = Some (PubLock (fst m) v)).
(** it has made it, for subscriber [s] among others *)
Definition made_for (m : Z * pub) (s : nat) (w : syst) : Prop :=
  exists v lo hi l, meant_for s (u_log (y_u w)) = Some (lo, hi, l) /\ In v l /\ nth_error (y_pubs w) (Z.to_nat v) = Some m.
Lemma meant_more : forall u a u' s lo hi m, uinv u -> uexec u a = Some u' ->
  meant_for s (u_log u) = Some (lo, hi, m) -> exists m', meant_for s (u_log u') = Some (lo, hi, m ++ m').
Proof.
  intros u a u' s lo hi m I X M. destruct (step_log u a u' X) as [E|[e E]]; rewrite E; [exists []; rewrite app_nil_r; exact M|].
  destruct e as [j id v|j|j s' lo' hi'|j s' st]; cbn [meant_for].
  - rewrite M. destruct ((lo <=? id) && (id <=? hi)); [eauto|exists []; rewrite app_nil_r; reflexivity].
  - exists []. rewrite app_nil_r. exact M.
  - destruct (Nat.eqb_spec s' s) as [->|D]; [|exists []; rewrite app_nil_r; exact M]. exfalso.
    assert (meant_for s (u_log u) <> None) as NN by congruence. destruct (c_log u I s NN) as [_ NR].
    uexec_cases X; ufields; try (apply (f_equal (@length uevent)) in E; cbn in E; lia); try congruence.
    injection E as _ -> _ _. exact (NR _ _ _ Hth).
  - exists []. rewrite app_nil_r. exact M.
Qed.
Lemma made_step : forall bcast me seen w a w' m s, yinv seen w -> yexec bcast me w a = Some w' -> made_for m s w -> made_for m s w'.
Proof.
  intros bcast me seen w a w' m s I H (v & lo & hi & l & M & V & N). pose proof (y_reach _ _ I) as R. destruct (pubs_grow _ _ _ _ _ H) as (pl & P). destruct (yexec_u _ _ _ _ _ H) as (u & U & W).
  assert (RU : ureachable u) by (destruct U as [->|(b & X & _)]; [exact R|exact (ureach_step _ _ _ R X)]).
  assert (MU : exists l', meant_for s (u_log u) = Some (lo, hi, l ++ l')).
  { destruct U as [->|(b & X & _)]; [exists []; rewrite app_nil_r; exact M|]. exact (meant_more _ _ _ _ _ _ _ (ureach_inv _ R) X M). }
  destruct MU as (l' & MU).
  assert (MW : exists l'', meant_for s (u_log (y_u w')) = Some (lo, hi, (l ++ l') ++ l'')).
  { destruct W as [[-> _]|(j & k & x & ps & pn & X & _)]; [exists []; rewrite app_nil_r; exact MU|]. exact (meant_more _ _ _ _ _ _ _ (ureach_inv _ RU) X MU). }
  destruct MW as (l'' & MW). exists v, lo, hi, ((l ++ l') ++ l''). split; [exact MW|]. split; [rewrite !in_app_iff; auto|].
  rewrite P, nth_error_app1; [exact N|]. apply nth_error_Some. congruence.
Qed.
Lemma handler_own : forall bcast me seen w a w' j m ps b p, yinv seen w -> yexec bcast me w a = Some w' -> y_step a = true -> y_of j a = true ->
  nth_error (y_ph w) j = Some (YHandle (m :: ps) b) -> nth_error (u_thr (y_u w)) j = Some p ->
  (nth_error (y_ph w') j = Some (YHandle (m :: ps) b) /\ forall k v, p = PubLock k v -> u_log (y_u w') = UPub j k v :: u_log (y_u w) /\ y_pubs w' = y_pubs w) \/
  ((forall k v, p <> PubLock k v) /\ match ps with [] => True | m1 :: ps1 => nth_error (y_ph w') j = Some (YHandle (m1 :: ps1) b) /\ exists v, nth_error (u_thr (y_u w')) j = Some (PubLock (fst m1) v) end).
Proof.
  intros bcast me seen w a w' j m ps b p I H S O HN Np. pose proof (y_phs _ _ I j) as PO. unfold phase_ok in PO. rewrite HN, Np in PO. destruct m as [k0 x0]. destruct PO as (v0 & PK & _).
  assert (UT : forall y, nth_error (upd (u_thr (y_u w)) j y) j = Some y) by (intros y; apply (upd_same _ _ _ _ _ Np)).
  assert (UP : forall y, nth_error (upd (y_ph w) j y) j = Some y) by (intros y; apply (upd_same _ _ _ _ _ HN)).
  assert (D0 : y_dead w = false) by (apply (yexec_live _ _ _ _ _ H)).
  destruct a as [| | |i ok|i|i|i|a]; try discriminate S; cbn [y_of] in O; try (apply Nat.eqb_eq in O; subst i; unfold yexec in H; rewrite D0, HN in H; discriminate H).
  destruct (yin_inv _ _ _ _ _ H) as (u & IN & X & R1 & R2).
  destruct a as [| |i|i|i]; try discriminate O; apply Nat.eqb_eq in O; subst i; cbn [uexec] in X; rewrite Np in X; destruct p; try discriminate PK; try discriminate X; cbn [ustep] in X.
  - left. destruct (u_lock _); [discriminate|]. injection X as <-. specialize (R2 _ eq_refl). cbn [y_returned] in R2. injection R2 as <-. split; [exact HN|]. intros kk vv K. injection K as <- <-. split; reflexivity.
  - destruct rest as [|s rest].
    + right. split; [discriminate|]. injection X as <-. specialize (R2 _ eq_refl). cbn [y_returned y_setu y_ph] in R2. rewrite HN in R2. destruct ps as [|[k1 x1] ps]; [exact Logic.I|].
      unfold y_publish in R2. destruct (uexec _ _) as [u2|] eqn:X2; [|discriminate]. injection R2 as <-. cbn [y_u y_ph y_setu]. split; [apply UP|].
      cbn [uexec y_u y_setu u_note u_set u_setlock u_thr] in X2. rewrite UT in X2. injection X2 as <-. cbn. eexists. apply (upd_same _ _ _ _ _ (UT UIdle)).
    + left. destruct (nth_error (u_objs (y_u w)) _) as [x|]; [|discriminate]. destruct (in_range x id); injection X as <-; rewrite R1 by reflexivity; split; [exact HN|discriminate|exact HN|discriminate].
  - left. destruct (nth_error (u_objs (y_u w)) _) as [x|]; [|discriminate]. destruct (sb_lock x); [discriminate|]. injection X as <-; rewrite R1 by reflexivity. split; [exact HN|discriminate].
  - left. destruct (nth_error (u_objs (y_u w)) _) as [x|]; [|discriminate]. destruct (Nat.ltb _ _); [|discriminate]. injection X as <-; rewrite R1 by reflexivity. split; [exact HN|discriminate].
  - left. destruct (nth_error (u_objs (y_u w)) _) as [x|]; [|discriminate]. injection X as <-; rewrite R1 by reflexivity. split; [exact HN|discriminate].
Qed.
(** the range is one subscriber [s] asked for *)
Definition wants (m : Z * pub) (s : nat) (w : syst) : Prop := exists lo hi l, meant_for s (u_log (y_u w)) = Some (lo, hi, l) /\ lo <= fst m <= hi.
Lemma underway_step : forall bcast me z a z' m s, zreach bcast me z -> zexec bcast me z a = Some z' -> wants m s (z_y z) -> underway m (z_y z) -> underway m (z_y z') \/ made_for m s (z_y z').
Proof.
  intros bcast me z a z' m s RE E (lo & hi & l & M & RG) UW. destruct (zreach_y _ _ _ RE) as (seen & I).
  assert (HS : exists j ps b, nth_error (y_ph (z_y z)) j = Some (YHandle ps b) /\ ps <> [] /\ ((exists m0 r, ps = m0 :: r /\ In m r) \/ (exists r v, ps = m :: r /\ nth_error (u_thr (y_u (z_y z))) j = Some (PubLock (fst m) v)))).
  { destruct UW as [(j & m0 & ps & b & N & IN)|(j & v & ps & b & N & T)]; exists j; do 2 eexists; (split; [exact N|]); (split; [discriminate|]); [left|right]; eauto. }
  destruct HS as (j & ps & b & N & NE & K). destruct (z_of j a) eqn:O.
  - destruct (zy_own _ _ _ _ _ _ _ RE E N ltac:(discriminate) O) as (a' & -> & S & OY & EY). destruct ps as [|m0 r]; [congruence|].
    pose proof (y_phs _ _ I j) as PO. unfold phase_ok in PO. rewrite N in PO. destruct (nth_error (u_thr (y_u (z_y z))) j) as [p|] eqn:Np; [|destruct m0; destruct PO].
    destruct (handler_own _ _ _ _ _ _ _ _ _ _ _ I EY S OY N Np) as [(N' & LG)|(NL & NX)].
    + destruct K as [(m1 & r1 & Q & IN)|(r1 & v & Q & T)]; injection Q as <- <-.
      * left. left. eauto 6.
      * right. injection T as ->. destruct (LG _ _ eq_refl) as [LL PP]. destruct m0 as [k x]. cbn [fst] in *. destruct PO as (v0 & PK & _ & PV). injection PK as <-.
        exists v, lo, hi, (l ++ [v]). rewrite LL, PP. cbn [meant_for]. rewrite M. replace ((lo <=? k) && (k <=? hi)) with true by (symmetry; apply andb_true_iff; split; lia).
        split; [reflexivity|]. split; [apply in_or_app; right; left; reflexivity|exact PV].
    + destruct K as [(m1 & r1 & Q & IN)|(r1 & v & Q & T)]; injection Q as <- <-; [|injection T as ->; destruct (NL _ _ eq_refl)].
      destruct r as [|m2 r]; [destruct IN|]. destruct NX as (N' & v & T'). left. destruct IN as [->|IN]; [right; eauto 6|left; eauto 6].
  - left. destruct (zy_stay _ _ _ _ _ _ _ RE E N ltac:(discriminate) O) as (N' & T' & _).
    destruct K as [(m1 & r1 & -> & IN)|(r1 & v & -> & T)]; [left; eauto 6|right]. exists j, v, r1, b. split; [exact N'|]. rewrite T'. exact T.
Qed.
(** goroutine [i] listens on *)
Definition open (i : nat) (p : upc) (t : timed) : Prop :=
  match p with
  | SubTime s _ => t_now t < t_end t i /\ t_now t < t_heard t s + 2000
  | SubWait s _ => t_now t < t_end t i /\ t_now t < t_heard t s + 2000 /\ t_now t < t_due t i
  | _ => False
  end.
Definition keeps (x : sphase) (p : upc) : list Z := match receiving p with Some (_, st) => st | None => held x end.
Inductive tracked (m : Z * pub) (i : nat) (q : scan) (old : list sdone) (t : timed) : Prop :=
| tr_open x p s st : scans i q t x p -> receiving p = Some (s, st) -> open i p t -> underway m (Yt t) \/ made_for m s (Yt t) -> scans_of i t = old -> tracked m i q old t
| tr_kept x p v : scans i q t x p -> In v (keeps x p) -> nth_error (y_pubs (Yt t)) (Z.to_nat v) = Some m -> scans_of i t = old -> tracked m i q old t
| tr_done f d v : scans_of i t = d ++ f :: old -> sd_req f = q -> In v (sd_store f) -> nth_error (y_pubs (Yt t)) (Z.to_nat v) = Some m -> tracked m i q old t.
Lemma scan_wants : forall bcast me t i q x p s st m, zreach bcast me (t_z t) -> scans i q t x p -> receiving p = Some (s, st) ->
  fst (scan_range q) <= fst m <= snd (scan_range q) -> wants m s (Yt t).
Proof.
  intros bcast me t i q x p s st m RE (N & Q & Np) R RG. destruct (zreach_y _ _ _ RE) as (seen & I). pose proof (y_phs _ _ I i) as PO. unfold phase_ok in PO. rewrite N, Np in PO.
  destruct x; try discriminate Q; injection Q as ->; destruct p; try discriminate R; try (destruct PO; fail); destruct PO as (_ & _ & l & M); injection R as -> ->; exists (fst (scan_range q)), (snd (scan_range q)), l; auto.
Qed.
Lemma pubs_kept : forall bcast me t a t' v m, texec bcast me t a = Some t' -> nth_error (y_pubs (Yt t)) v = Some m -> nth_error (y_pubs (Yt t')) v = Some m.
Proof. intros bcast me t a t' v m E N. destruct (pubs_step _ _ _ _ _ E) as (l & ->). rewrite nth_error_app1; [exact N|]. apply nth_error_Some. congruence. Qed.
Lemma tracked_step : forall bcast me t a t' m i q old, zreach bcast me (t_z t) -> texec bcast me t (TDo a) = Some t' -> (forall s, t_heard t s <= t_now t) ->
  fst (scan_range q) <= fst m <= snd (scan_range q) -> tracked m i q old t -> tracked m i q old t'.
Proof.
  intros bcast me t a t' m i q old RE E HN RG [x p s st SC R OP K RO|x p v SC V NV RO|f d v RO FQ V NV].
  - pose proof (scan_wants _ _ _ _ _ _ _ _ _ m RE SC R RG) as W. pose proof (now_do _ _ _ _ _ E) as NW. pose proof (heard_mono _ _ _ _ _ E HN s) as HM.
    assert (K' : underway m (Yt t') \/ made_for m s (Yt t')).
    { destruct (texec_do _ _ _ _ _ E) as (z & _ & Z & ->). cbn [set_z t_z]. destruct K as [K|K]; [exact (underway_step _ _ _ _ _ _ _ RE Z W K)|right].
      destruct (zreach_y _ _ _ RE) as (seen & I). destruct (zexec_y _ _ _ _ _ Z) as [->|(b & EY & _)]; [exact K|exact (made_step _ _ _ _ _ _ _ _ I EY K)]. }
    destruct (scans_step _ _ _ _ _ _ _ _ _ RE E SC) as [(SC' & DU & EN & RO' & _)|[(b' & x' & p' & -> & H1 & SC' & OC & RO')|(b' & f & _ & EN & FQ & RO')]].
    + apply (tr_open m i q old t' x p s st SC' R); [|exact K'|congruence]. destruct p; try destruct OP; injection R as -> ->; cbn [open]; lia.
    + destruct H1; cbn [open own_clocks receiving] in *; try discriminate R; try (destruct OP; fail); try (injection R as -> ->).
      * assert (D : t_due t' i = t_due t i /\ t_end t' i = t_end t i) by (destruct H0 as [(ok & ->)| ->]; exact OC).
        apply (tr_open m i q old t' x' p s st SC' R); [|exact K'|congruence]. destruct p; try destruct OP; injection R as -> ->; cbn [open]; lia.
      * apply (tr_open m i q old t' _ _ s st SC' eq_refl); [|exact K'|congruence]. cbn [open]. lia.
      * apply (tr_open m i q old t' _ _ s (st ++ [v]) SC' eq_refl); [|exact K'|congruence]. cbn [open]. lia.
      * lia.
    + exfalso. destruct EN as (-> & _). discriminate R.
  - pose proof (pubs_kept _ _ _ _ _ _ _ E NV) as NV'.
    destruct (scans_step _ _ _ _ _ _ _ _ _ RE E SC) as [(SC' & DU & EN & RO' & _)|[(b' & x' & p' & -> & H1 & SC' & OC & RO')|(b' & f & _ & EN & FQ & RO')]].
    + apply (tr_kept m i q old t' x p v SC' V NV'). congruence.
    + apply (tr_kept m i q old t' x' p' v SC'); [|exact NV'|congruence]. destruct H1; cbn [keeps receiving held] in *; try exact V; try (destruct V; fail).
      * destruct H; exact V.
      * apply in_or_app. auto.
    + destruct EN as (-> & _ & _ & _ & FS & _). apply (tr_done m i q old t' f [] v); [rewrite RO', RO; reflexivity|exact FQ| |exact NV']. rewrite FS. exact V.
  - destruct (scans_grow bcast me [TDo a] t t' i) as (d1 & RO1); [cbn [trun]; rewrite E; reflexivity|].
    apply (tr_done m i q old t' f (d1 ++ d) v); [rewrite RO1, RO, app_assoc; reflexivity|exact FQ|exact V|exact (pubs_kept _ _ _ _ _ _ _ E NV)].
Qed.
Lemma tracked_run : forall bcast me l t t' m i q old, zreach bcast me (t_z t) -> trun bcast me t l = Some t' -> prompt bcast me t l -> z_dead (t_z t') = false ->
  never_stuck bcast me i old t l -> (forall s, t_heard t s <= t_now t) -> fst (scan_range q) <= fst m <= snd (scan_range q) -> tracked m i q old t -> tracked m i q old t'.
Proof.
  intros bcast me l. induction l as [|b l IH]; intros t t' m i q old RE H PR LV NS HN RG S; cbn [trun] in H; [injection H as <-; exact S|].
  destruct (texec bcast me t b) as [t1|] eqn:E; [|discriminate]. pose proof (live_back _ _ _ _ _ H LV) as LV1. cbn [SpecTime.prompt] in PR. destruct PR as [PA PR].
  assert (HN1 : forall s, t_heard t1 s <= t_now t1) by (apply (heard_now bcast me [b] t t1); [cbn [trun]; rewrite E; reflexivity|exact HN]).
  apply (IH t1 t' m i q old (reach_step _ _ _ _ _ RE E) H (PR _ E) LV (never_stuck_tail _ _ _ _ _ _ _ _ E NS) HN1 RG).
  destruct b as [b|d]; [exact (tracked_step _ _ _ _ _ _ _ _ _ RE E HN RG S)|].
  assert (LV0 : z_dead (t_z t) = false) by (apply (live_back bcast me [TPass d] t t1); [cbn [trun]; rewrite E; reflexivity|exact LV1]).
  cbn [texec] in E. destruct (0 <? d) eqn:D; [|discriminate]. injection E as <-. destruct S as [x p s st SC R OP K RO|x p v SC V NV RO|f d' v RO FQ V NV]; [|apply (tr_kept m i q old _ x p v); [exact SC|exact V|exact NV|exact RO]|apply (tr_done m i q old _ f d' v); [exact RO|exact FQ|exact V|exact NV]].
  destruct (idle_scan bcast me t d i q x p RE LV0 ltac:(lia) (PA d eq_refl) (never_stuck_now _ _ _ _ _ _ NS RO) SC) as (s' & st' & tx & e & -> & -> & DU & QE & LK & NP).
  injection R as -> ->. destruct (zreach_y _ _ _ RE) as (seen & I). destruct K as [K|K].
  - exfalso. assert (HS : exists j m0 ps b, nth_error (y_ph (Yt t)) j = Some (YHandle (m0 :: ps) b)) by (destruct K as [(j & m0 & ps & b & N & _)|(j & v & ps & b & N & _)]; eauto 6).
    destruct HS as (j & m0 & ps & b & N). pose proof (y_phs _ _ I j) as PO. unfold phase_ok in PO. rewrite N in PO. destruct (nth_error (u_thr (Ut t)) j) as [p|] eqn:Np; [|destruct m0; destruct PO].
    destruct m0. destruct PO as (v & PK & _). rewrite (NP _ _ Np) in PK. discriminate PK.
  - destruct K as (v & lo & hi & l' & M & V & NV). destruct SC as (N & Q & Np). destruct (e_sub _ (ureach_inv _ (y_reach _ _ I)) _ _ _ _ Np eq_refl) as (sx & O & M').
    unfold current in M'. rewrite LK in M'. cbn [cur pend] in M'. unfold queue in QE. rewrite O in QE. rewrite QE, !app_nil_r in M'. rewrite M' in M. injection M as <- <- <-.
    apply (tr_kept m i q old _ (YSub q tx e) (SubWait s st) v); [exact (conj N (conj Q Np))|exact V|exact NV|exact RO].
Qed.
Lemma arrives_underway : forall bcast me t j src b t' m, texec bcast me t (TDo (ZArrive j src b)) = Some t' -> announces src b m -> underway m (Yt t').
Proof.
  intros bcast me t j src b t' m E AN. destruct (texec_do _ _ _ _ _ E) as (z & _ & Z & ->). cbn [set_z t_z]. pose proof (zexec_live _ _ _ _ _ Z) as LV. unfold zexec in Z. rewrite LV in Z.
  destruct (z_free _ _) eqn:FR; [|discriminate]. destruct (free_parts _ _ FR) as (_ & F2 & _). destruct (yexec bcast me (Yt t) (YArrive j src b false)) as [y|] eqn:EY; [|discriminate]. injection Z as <-. cbn [z_y].
  unfold announces in AN. rewrite (published_known _ (fun _ => false)) in AN. unfold yexec in EY. destruct (y_dead _); [discriminate|]. rewrite F2 in EY.
  unfold SpecRun.published in AN. cbn [flat_map fst snd] in AN. rewrite app_nil_r in AN. destruct (handleMsg (fun _ => false) src b) as [eff pn]. cbn [fst] in AN.
  change SpecRun.pub_of with effect_pub in AN. unfold y_publish in EY. destruct (flat_map effect_pub eff) as [|[k x] ps]; [destruct AN|].
  destruct (uexec _ _) as [u|] eqn:X; [|discriminate]. injection EY as <-. cbn [uexec] in X. destruct (nth_error (u_thr (Ut t)) j) as [[]|] eqn:Np; try discriminate X. injection X as <-.
  destruct AN as [<-|IN]; [right|left].
  - exists j. eexists. exists ps, pn. cbn. split; [apply (upd_same _ _ _ _ _ F2)|]. apply (upd_same _ _ _ _ _ Np).
  - exists j, (k, x), ps, pn. cbn. split; [apply (upd_same _ _ _ _ _ F2)|exact IN].
Qed.
(** ** A call that is stuck does not return *)
Lemma stuck_step : forall bcast me t a t' i, zreach bcast me (t_z t) -> texec bcast me t a = Some t' -> SpecScan.stuck (Yt t) -> scanning (Yt t) i ->
  SpecScan.stuck (Yt t') /\ scanning (Yt t') i /\ scans_of i t' = scans_of i t.
Proof.
  intros bcast me t a t' i RE T S SC. destruct a as [a|d].
  - destruct (texec_do _ _ _ _ _ T) as (z & _ & E & ->). cbn [set_z t_z].
    assert (R1 : zrun bcast me (t_z t) [a] = Some z) by (cbn [zrun]; rewrite E; reflexivity).
    destruct RE as (l & R). pose proof (whole_scans _ _ _ _ R) as (ly & RY & _). destruct (y_follows _ _ _ _ _ R1) as (ly' & R'). destruct (stuck_run _ _ _ _ _ _ RY S R') as [A B].
    split; [exact A|]. split; [exact (B i SC)|]. destruct SC as (q & tx & e & N).
    assert (RE : zreach bcast me (t_z t)) by (exists l; exact R). destruct (zreach_y _ _ _ RE) as (seen & I). pose proof (y_phs _ _ I i) as PO. unfold phase_ok in PO. rewrite N in PO.
    destruct (nth_error (u_thr (Ut t)) i) as [p|] eqn:Np; [|destruct PO].
    destruct (scans_step _ _ _ _ _ i q _ p RE T (conj N (conj eq_refl Np))) as [(_ & _ & _ & K & _)|[(b & x' & p' & _ & _ & _ & _ & K)|(b & f & _ & (_ & K & _) & _)]]; [exact K|exact K|discriminate K].
  - cbn [texec] in T. destruct (0 <? d); [|discriminate]. injection T as <-. auto.
Qed.
Lemma stuck_for_good : forall bcast me l t t' i, zreach bcast me (t_z t) -> trun bcast me t l = Some t' -> SpecScan.stuck (Yt t) -> scanning (Yt t) i -> scans_of i t' = scans_of i t.
Proof.
  intros bcast me l. induction l as [|a l IH]; intros t t' i RE H S SC; cbn [trun] in H; [injection H as <-; reflexivity|].
  destruct (texec bcast me t a) as [t1|] eqn:E; [|discriminate]. destruct (stuck_step _ _ _ _ _ _ RE E S SC) as (S1 & SC1 & EQ). rewrite <- EQ.
  exact (IH _ _ _ (reach_step _ _ _ _ _ RE E) H S1 SC1).
Qed.
Lemma heard_returned : forall bcast me l1 t0 i q t1 l2 ta j src b tb l3 t2 m f d, trun bcast me t_init l1 = Some t0 -> texec bcast me t0 (TDo (ZScan i q)) = Some t1 ->
  trun bcast me t1 l2 = Some ta -> listens i q ta -> scans_of i ta = scans_of i t0 -> texec bcast me ta (TDo (ZArrive j src b)) = Some tb -> announces src b m ->
  fst (scan_range q) <= fst m <= snd (scan_range q) ->
  trun bcast me tb l3 = Some t2 -> prompt bcast me tb l3 -> z_dead (t_z t2) = false -> scans_of i t2 = d ++ f :: scans_of i t0 ->
  exists vs, sd_req f = q /\ In (snd m) vs /\ (sd_result f = scan_result q vs \/ sd_failed f = true /\ sd_result f = XErr).
Proof.
  intros bcast me l1 t0 i q t1 l2 ta j src b tb l3 t2 m f d R1 E R2 (s & store & tx & e & N & LI) RA EA AN RG R3 PR LV RO.
  set (l := l2 ++ TDo (ZArrive j src b) :: l3) in *.
  assert (R : trun bcast me t1 l = Some t2) by (unfold l; rewrite trun_cat, R2; cbn [trun]; rewrite EA; exact R3).
  pose proof (live_back _ _ _ _ _ R3 LV) as LVb. assert (LVa : z_dead (t_z ta) = false) by (apply (live_back bcast me [TDo (ZArrive j src b)] ta tb); [cbn [trun]; rewrite EA; reflexivity|exact LVb]).
  destruct (scan_begin _ _ _ _ _ _ _ R1 E (live_back _ _ _ _ _ R2 LVa)) as (RE & HN & NW & RO1 & SC & SL).
  pose proof (reach_run _ _ _ _ _ RE R2) as REa. pose proof (heard_now _ _ _ _ _ R2 HN) as HNa.
  assert (S1 : saned i q (scans_of i t0) t1) by (left; do 2 eexists; split; [exact SC|]; split; [exact Logic.I|exact RO1]).
  destruct (saned_run _ _ _ _ _ _ _ _ RE R2 HN S1) as [(x & p & SCa & SA & ROa)|(f0 & d0 & K & _)]; [|rewrite RA in K; symmetry in K; destruct (cons_more _ _ _ K)].
  pose proof SCa as SCa'. destruct SCa' as (Na & Qa & Npa). rewrite N in Na. injection Na as <-.
  assert (OP : exists s st, receiving p = Some (s, st) /\ open i p ta).
  { destruct LI as [(T & A & B)|(T & A)]; rewrite Npa in T; injection T as ->; exists s, store; (split; [reflexivity|]); cbn [open sane] in *; lia. }
  destruct OP as (s' & st' & RC & OP).
  assert (TR : tracked m i q (scans_of i t0) tb).
  { pose proof (arrives_underway _ _ _ _ _ _ _ _ EA AN) as UW. pose proof (heard_mono _ _ _ _ _ EA HNa s') as HM. pose proof (now_do _ _ _ _ _ EA) as NWb.
    destruct (scans_step _ _ _ _ _ _ _ _ _ REa EA SCa) as [(SC' & DU & EN & RO' & _)|[(b' & x' & p' & K & _)|(b' & f0 & K & _)]]; [|discriminate K|discriminate K].
    apply (tr_open m i q _ tb _ p s' st' SC' RC); [|left; exact UW|congruence]. destruct p; try destruct OP; injection RC as -> ->; cbn [open]; lia. }
  assert (NSb : never_stuck bcast me i (scans_of i t0) tb l3).
  { intros la lb tc EQ RC' ROc SCc ST. rewrite EQ, trun_cat, RC' in R3. pose proof (stuck_for_good _ _ _ _ _ _ (reach_run _ _ _ _ _ (reach_step _ _ _ _ _ REa EA) RC') R3 ST SCc) as K.
    rewrite RO, ROc in K. exact (cons_more _ _ _ K). }
  assert (HNb : forall s, t_heard tb s <= t_now tb) by (apply (heard_now bcast me [TDo (ZArrive j src b)] ta tb); [cbn [trun]; rewrite EA; reflexivity|exact HNa]).
  destruct (tracked_run _ _ _ _ _ m i q _ (reach_step _ _ _ _ _ REa EA) R3 PR LV NSb HNb RG TR) as [x0 p0 s0 st0 _ _ _ _ K|x0 p0 v _ _ _ K|f' d' v K FQ' V NV].
  - rewrite RO in K. destruct (cons_more _ _ _ K).
  - rewrite RO in K. destruct (cons_more _ _ _ K).
  - rewrite RO in K. apply cons_fits in K. subst f'. exists (y_values (Yt t2) (sd_store f)). split; [exact FQ'|].
    split. { unfold y_values. apply in_flat_map. exists v. split; [exact V|]. unfold y_pub. rewrite NV. left. reflexivity. }
    assert (IN : In f (y_done (Yt t2))). { assert (K : In f (scans_of i t2)) by (rewrite RO; apply in_or_app; right; left; reflexivity). unfold scans_of in K. apply filter_In in K. apply K. }
    destruct (zreach_y _ _ _ (reach_run _ _ _ _ _ RE R)) as (seen & I). destruct (y_fin _ _ I f IN) as (_ & [(A & _ & B)|A]); [right; auto|left]. rewrite FQ' in A. exact A.
Qed.
