(** * What discovery calls leave behind *)
Require Import List ZArith Bool Lia.
From Verif Require Import ModelClient ModelSystem ModelScan ModelWhole ModelTime SpecSystem SpecUtsm SpecScan SpecWhole SpecFair SpecTime SpecTimeScan SpecLeak.
From Verif Require ModelTsm SpecTsm ProofsTsm ProofsTsmProps ModelUtsm ProofsUtsm ProofsUtsmProps ProofsFate.
From Verif Require Import ProofsSystem ProofsSystemProps ProofsSystemLive ProofsScan ProofsWhole ProofsFair ProofsFairWhole ProofsFairScan ProofsTime ProofsTimeScan ProofsTimeHear.
Import ListNotations.
Import ModelTsm ModelUtsm ProofsTsm ProofsUtsm ProofsUtsmProps ProofsFate.
Open Scope Z_scope.

(** ** How a call returns *)
Definition checked_out (w : syst) (b : yaction) (f : sdone) : Prop :=
  exists i q s st tx, b = YCheck i /\ nth_error (y_ph w) i = Some (YTest q s st tx true) /\ scan_stops q = true /\
    sd_thread f = i /\ sd_req f = q /\ sd_result f = XErr.
Definition took_over (w : syst) (b : yaction) (f : sdone) : Prop :=
  exists i q s st fl e e', b = YTake i /\ nth_error (y_ph w) i = Some (YWait q s st (TOffer fl e) e') /\
    sd_thread f = i /\ sd_req f = q /\ sd_failed f = fl /\ sd_result f = (if e && scan_stops q then XErr else scan_result q (y_values w st)).
Lemma y_ends : forall bcast me w b w', yexec bcast me w b = Some w' ->
  y_done w' = y_done w \/ exists f, y_done w' = f :: y_done w /\ (checked_out w b f \/ took_over w b f).
Proof.
  intros bcast me w a w' H. unfold yexec in H. destruct (y_dead w); [discriminate|].
  assert (PB : forall v k ps b v', y_publish v k ps b = Some v' -> y_done v' = y_done v).
  { clear H. intros v k ps b v' P. unfold y_publish in P. destruct ps as [|[? ?] ps]; [injection P as <-; destruct b; reflexivity|]. destruct (uexec _ _); [|discriminate]. injection P as <-. reflexivity. }
  destruct a as [|j q|j src b known|j ok|j|j|j|a].
  - cbn [uexec] in H. injection H as <-. left. reflexivity.
  - destruct (nth_error (y_ph w) j) as [[]|]; try discriminate H. destruct (scan_frame _ _ _); [|injection H as <-; left; reflexivity]. destruct (uexec _ _); [|discriminate]. injection H as <-. left. reflexivity.
  - destruct (nth_error (y_ph w) j) as [[]|]; try discriminate H. destruct (handleMsg _ _ _) as [eff pn]. left. exact (PB _ _ _ _ _ H).
  - destruct (nth_error (y_ph w) j) as [[|q [] ?|q s st [] ?|q s st [] ?|]|]; try discriminate H; injection H as <-; left; reflexivity.
  - destruct (nth_error (y_ph w) j) as [[|q [] ?|q s st [] ?|q s st [] ?|]|]; try discriminate H; injection H as <-; left; reflexivity.
  - destruct (nth_error (y_ph w) j) as [[|q t ?|q s st t err|q s st t ?|]|] eqn:N; try discriminate H. destruct (err && scan_stops q) eqn:G; injection H as <-; [|left; reflexivity].
    apply andb_prop in G. destruct G as [-> G]. right. eexists. split; [reflexivity|]. left. exists j, q, s, st, t. cbn. auto 8.
  - destruct (nth_error (y_ph w) j) as [[|q t ?|q s st t ?|q s st [|?|fl e] e'|]|] eqn:N; try discriminate H. injection H as <-.
    right. eexists. split; [reflexivity|]. right. exists j, q, s, st, fl, e, e'. cbn. auto 8.
  - left. destruct (y_inside a); [|discriminate]. destruct (uexec (y_u w) a) as [u|]; [|discriminate].
    destruct (Nat.eqb _ _); [injection H as <-; reflexivity|]. destruct (u_log u) as [|e t]; [injection H as <-; reflexivity|].
    destruct e; cbn [y_returned] in H; try (injection H as <-; reflexivity).
    + destruct (nth_error _ _) as [[| | | |[|? ps] b]|] in H; try (injection H as <-; reflexivity). rewrite (PB _ _ _ _ _ H). reflexivity.
    + destruct (nth_error _ _) as [[| | | |]|] in H; injection H as <-; reflexivity.
Qed.
(** the same for a step of the client with its clock *)
Lemma t_ends : forall bcast me t a t', texec bcast me t a = Some t' ->
  y_done (Yt t') = y_done (Yt t) \/ exists b f, a = TDo (ZY b) /\ yexec bcast me (Yt t) b = Some (Yt t') /\ y_done (Yt t') = f :: y_done (Yt t) /\ (checked_out (Yt t) b f \/ took_over (Yt t) b f).
Proof.
  intros bcast me t [a|d] t' H; [|cbn [texec] in H; destruct (0 <? d); [|discriminate]; injection H as <-; left; reflexivity].
  destruct (texec_do _ _ _ _ _ H) as (z & _ & E & ->). cbn [set_z t_z]. destruct (zexec_y _ _ _ _ _ E) as [->|(b & EY & B)]; [left; reflexivity|].
  destruct (y_ends _ _ _ _ _ EY) as [D|(f & D & K)]; [left; exact D|]. right. exists b, f.
  assert (Y : a = ZY b).
  { destruct a as [|? ?|? ?|? ? ?|?|?|b']; try (destruct B; fail); try (subst b; destruct K as [(? & ? & ? & ? & ? & K & _)|(? & ? & ? & ? & ? & ? & ? & K & _)]; discriminate K). destruct B as [-> _]. reflexivity. }
  rewrite Y. auto.
Qed.

(** ** Only a call that reports leaves its goroutine *)
Definition left_at (t : timed) (a : taction) (t' : timed) : list nat :=
  if Nat.eqb (length (y_done (Yt t'))) (length (y_done (Yt t))) then []
  else match a, y_done (Yt t') with TDo (ZY (YTake _)), _ => [] | _, f :: _ => [sd_thread f] | _, [] => [] end.
Lemma left_step : forall bcast me t a t', texec bcast me t a = Some t' ->
  left_at t a t' = [] \/ exists b f, a = TDo (ZY b) /\ yexec bcast me (Yt t) b = Some (Yt t') /\ left_at t a t' = [sd_thread f] /\ y_done (Yt t') = f :: y_done (Yt t) /\ checked_out (Yt t) b f.
Proof.
  intros bcast me t a t' H. unfold left_at. destruct (t_ends _ _ _ _ _ H) as [D|(b & f & -> & EY & D & K)]; rewrite D; [rewrite Nat.eqb_refl; auto|].
  cbn [length]. replace (Nat.eqb (S (length (y_done (Yt t)))) (length (y_done (Yt t)))) with false by (symmetry; apply Nat.eqb_neq; lia).
  destruct K as [(i & q & s & st & tx & -> & N & S & TH & RQ & RS)|(i & q & s & st & fl & e & e' & -> & _)]; [|left; reflexivity].
  right. exists (YCheck i), f. split; [reflexivity|]. split; [exact EY|]. split; [reflexivity|]. split; [reflexivity|]. exists i, q, s, st, tx. auto 8.
Qed.
Lemma left_cons : forall bcast me t a r t', texec bcast me t a = Some t' -> left_behind bcast me t (a :: r) = left_at t a t' ++ left_behind bcast me t' r.
Proof. intros bcast me t a r t' E. cbn [left_behind]. rewrite E. reflexivity. Qed.
Definition mine (i : nat) (f : sdone) : bool := Nat.eqb (sd_thread f) i.
Lemma unsent_grow : forall bcast me t a t', zreach bcast me (t_z t) -> texec bcast me t a = Some t' -> forall i,
  (count_occ Nat.eq_dec (left_at t a t') i + length (filter (mine i) (unsent t)) <= length (filter (mine i) (unsent t')))%nat.
Proof.
  intros bcast me t a t' RE E i. pose proof (reach_step _ _ _ _ _ RE E) as RE'. destruct (left_step _ _ _ _ _ E) as [->|(b & f & -> & EY & -> & D & C)].
  - cbn [count_occ]. unfold unsent. destruct (t_ends _ _ _ _ _ E) as [->|(b & f & _ & _ & -> & _)]; [lia|]. cbn [filter].
    destruct (match sd_req f, sd_result f with QWho _, XErr => sd_failed f | _, _ => false end); cbn [filter]; [destruct (mine i f)|]; cbn [length]; lia.
  - destruct C as (j & q & s & st & tx & -> & N & S & TH & RQ & RS). unfold unsent. rewrite D. cbn [filter]. destruct (zreach_y _ _ _ RE') as (seen & I).
    destruct (y_fin _ _ I f) as [_ K]; [rewrite D; left; reflexivity|]. destruct K as [(_ & _ & F)|K]; [|rewrite RS, RQ in K; destruct q; discriminate K].
    rewrite RS, RQ. destruct q as [wh| |]; try discriminate S. rewrite F. cbn [filter]. unfold mine at 2. destruct (Nat.eqb (sd_thread f) i) eqn:M.
    + apply Nat.eqb_eq in M. cbn [count_occ length]. destruct (Nat.eq_dec _ _); lia.
    + apply Nat.eqb_neq in M. cbn [count_occ]. destruct (Nat.eq_dec _ _); lia.
Qed.
Lemma left_counted : forall bcast me l t t', zreach bcast me (t_z t) -> trun bcast me t l = Some t' -> forall i,
  (count_occ Nat.eq_dec (left_behind bcast me t l) i + length (filter (mine i) (unsent t)) <= length (filter (mine i) (unsent t')))%nat.
Proof.
  intros bcast me l. induction l as [|a l IH]; intros t t' RE H i; cbn [trun] in H; [injection H as <-; cbn; lia|].
  destruct (texec bcast me t a) as [t1|] eqn:E; [|discriminate]. rewrite (left_cons _ _ _ _ _ _ E), count_occ_app.
  pose proof (unsent_grow _ _ _ _ _ RE E i). pose proof (IH _ _ (reach_step _ _ _ _ _ RE E) H i). lia.
Qed.
Lemma left_only : forall bcast me l t, trun bcast me t_init l = Some t -> forall i,
  (count_occ Nat.eq_dec (left_behind bcast me t_init l) i <= length (filter (fun f => Nat.eqb (sd_thread f) i) (unsent t)))%nat.
Proof. intros bcast me l t H i. pose proof (left_counted _ _ _ _ _ (reach_init bcast me) H i) as K. unfold mine in K. lia. Qed.

(** ** When the machine keeps up *)
Definition reported (c : Z) (x : sphase) (t : timed) : Prop :=
  match x with
  | YSub _ TNot _ => t_now t <= c
  | YSub _ (TSent f) e => e = f /\ t_now t <= c
  | YSub _ (TOffer f e') _ => e' = f
  | YTest _ _ _ (TOffer f e') e => e' = f /\ e = false
  | YWait _ _ _ (TOffer f e') _ => e' = f
  | _ => False
  end.
Definition fine (t : timed) : Prop := forall i q x p, scans i q t x p -> exists c, slow c i x p t /\ reported c x t.
Definition told (f : sdone) : Prop := sd_result f = XErr <-> (exists wh, sd_req f = QWho wh) /\ sd_failed f = true.

Lemma publish_ph : forall w j ps b w' i x, y_publish w j ps b = Some w' -> nth_error (y_ph w') i = Some x -> scan_of x <> None -> nth_error (y_ph w) i = Some x.
Proof.
  intros w j ps b w' i x H N S. unfold y_publish in H. destruct ps as [|[k y] ps].
  - injection H as <-. assert (K : nth_error (upd (y_ph w) j YFree) i = Some x) by (destruct b; exact N). apply upd_inv in K. destruct K as [[-> ->]|[_ K]]; [destruct (S eq_refl)|exact K].
  - destruct (uexec _ _); [|discriminate]. injection H as <-. cbn [y_ph] in N. apply upd_inv in N. destruct N as [[-> ->]|[_ K]]; [destruct (S eq_refl)|exact K].
Qed.
(** a call is in progress because it was, or because it has just been made *)
Lemma y_from : forall bcast me w b w' i x', yexec bcast me w b = Some w' -> nth_error (y_ph w') i = Some x' -> scan_of x' <> None ->
  (exists x, nth_error (y_ph w) i = Some x /\ scan_of x <> None) \/ exists q, b = YCall i q.
Proof.
  intros bcast me w a w' i x' H N S. unfold yexec in H. destruct (y_dead w); [discriminate|].
  assert (G : forall j z y, nth_error (y_ph w) j = Some z -> scan_of z <> None -> nth_error (upd (y_ph w) j y) i = Some x' -> exists x, nth_error (y_ph w) i = Some x /\ scan_of x <> None).
  { intros j z y A B C. apply upd_inv in C. destruct C as [[-> _]|[_ C]]; eauto. }
  destruct a as [|j q|j src b known|j ok|j|j|j|a].
  - cbn [uexec] in H. injection H as <-. cbn [y_ph] in N. destruct (Nat.lt_ge_cases i (length (y_ph w))) as [L|L]; [rewrite nth_error_app1 in N by exact L; left; eauto|].
    rewrite nth_error_app2 in N by exact L. destruct (i - _)%nat as [|[|?]]; try discriminate N. injection N as <-. destruct (S eq_refl).
  - destruct (nth_error (y_ph w) j) as [[]|] eqn:NJ; try discriminate H. destruct (scan_frame _ _ _); [|injection H as <-; left; exists x'; auto]. destruct (uexec _ _); [|discriminate]. injection H as <-.
    cbn [y_setph y_setu y_ph] in N. apply upd_inv in N. destruct N as [[-> _]|[_ N]]; [right; eauto|left; eauto].
  - destruct (nth_error (y_ph w) j) as [[]|]; try discriminate H. destruct (handleMsg _ _ _) as [eff pn]. left. exists x'. split; [exact (publish_ph _ _ _ _ _ _ _ H N S)|exact S].
  - left. destruct (nth_error (y_ph w) j) as [[|q [] ?|q s st [] ?|q s st [] ?|]|] eqn:NJ; try discriminate H; injection H as <-; cbn [y_setph y_ph] in N; refine (G _ _ _ NJ _ N); discriminate.
  - left. destruct (nth_error (y_ph w) j) as [[|q [] ?|q s st [] ?|q s st [] ?|]|] eqn:NJ; try discriminate H; injection H as <-; cbn [y_setph y_ph] in N; refine (G _ _ _ NJ _ N); discriminate.
  - left. destruct (nth_error (y_ph w) j) as [[|q t ?|q s st t ?|q s st t ?|]|] eqn:NJ; try discriminate H. destruct (_ && _); injection H as <-; cbn [y_setph y_finish y_ph] in N; refine (G _ _ _ NJ _ N); discriminate.
  - left. destruct (nth_error (y_ph w) j) as [[|q t ?|q s st t ?|q s st [] ?|]|] eqn:NJ; try discriminate H. injection H as <-. cbn [y_finish y_ph] in N. refine (G _ _ _ NJ _ N). discriminate.
  - left. destruct (y_inside a); [|discriminate]. destruct (uexec (y_u w) a) as [u|]; [|discriminate].
    destruct (Nat.eqb _ _); [injection H as <-; eauto|]. destruct (u_log u) as [|e t]; [injection H as <-; eauto|].
    destruct e as [j s st|j|j s lo hi|j s st]; cbn [y_returned] in H; try (injection H as <-; eauto; fail); cbn [y_setu y_ph] in H.
    + destruct (nth_error (y_ph w) j) as [[| | | |[|? ps] b]|]; try (injection H as <-; eauto; fail). exists x'. split; [exact (publish_ph _ _ _ _ _ _ _ H N S)|exact S].
    + destruct (nth_error (y_ph w) j) as [[| | | |]|] eqn:NJ; injection H as <-; cbn [y_setph y_setu y_ph] in N; eauto. refine (G _ _ _ NJ _ N). discriminate.
Qed.
Lemma has_thread : forall bcast me t i x, zreach bcast me (t_z t) -> nth_error (y_ph (Yt t)) i = Some x -> exists p, nth_error (u_thr (Ut t)) i = Some p.
Proof.
  intros bcast me t i x RE N. destruct (zreach_y _ _ _ RE) as (seen & I). destruct (nth_error (u_thr (Ut t)) i) eqn:E; [eauto|]. apply nth_error_None in E. rewrite <- (same_length _ _ I) in E.
  apply nth_error_None in E. congruence.
Qed.
Lemma fine_do : forall bcast me t a t', zreach bcast me (t_z t) -> texec bcast me t (TDo a) = Some t' -> z_dead (t_z t') = false -> (forall s, t_heard t s <= t_now t) -> fine t -> fine t'.
Proof.
  intros bcast me t a t' RE E LV HN F i q' x' p' SC'. pose proof (now_do _ _ _ _ _ E) as NW.
  assert (FR : (exists x, nth_error (y_ph (Yt t)) i = Some x /\ scan_of x <> None) \/ exists q, a = ZScan i q).
  { destruct SC' as (N' & Q' & _). destruct (texec_do _ _ _ _ _ E) as (z & _ & Z & ->). cbn [set_z t_z] in N'. destruct (zexec_y _ _ _ _ _ Z) as [K|(b & EY & B)].
    - left. rewrite K in N'. exists x'. split; [exact N'|congruence].
    - destruct (y_from _ _ _ _ _ _ _ EY N') as [K|(q & ->)]; [congruence|left; exact K|]. right. exists q. destruct a as [|? ?|? ?|? ? ?|?|?|b']; try discriminate B; try (destruct B; fail).
      + injection B as <- <-. reflexivity.
      + destruct B as [_ B]. discriminate B. }
  destruct FR as [(x & N & S)|(q & ->)].
  - destruct (scan_of x) as [q|] eqn:Q; [|destruct (S eq_refl)]. destruct (has_thread _ _ _ _ _ RE N) as (p & Np). assert (SC : scans i q t x p) by exact (conj N (conj Q Np)).
    destruct (F _ _ _ _ SC) as (c & SL & RP). exists c.
    assert (BOTH : scans_of i t' = scans_of i t -> slow c i x' p' t').
    { intros K. destruct (slow_step _ _ _ _ _ _ _ _ _ _ RE E HN SC SL) as [(x2 & p2 & (N2 & _ & Np2) & SL2 & _)|(f & _ & _ & _ & R2)].
      - destruct SC' as (N1 & _ & Np1). rewrite N1 in N2. injection N2 as <-. rewrite Np1 in Np2. injection Np2 as <-. exact SL2.
      - rewrite K in R2. apply (f_equal (@length _)) in R2. cbn in R2. lia. }
    destruct (scans_step _ _ _ _ _ _ _ _ _ RE E SC) as [(SC2 & _ & _ & RO & _)|[(b & x2 & p2 & -> & H & SC2 & _ & RO)|(b & f & -> & EN & _ & RO)]].
    + split; [exact (BOTH RO)|]. destruct SC' as (N1 & _). destruct SC2 as (N2 & _). rewrite N1 in N2. injection N2 as <-. unfold reported in *. rewrite NW. exact RP.
    + split; [exact (BOTH RO)|]. destruct SC' as (N1 & _ & _). destruct SC2 as (N2 & _ & _). rewrite N1 in N2. injection N2 as <-.
      destruct H; try (unfold reported in *; rewrite NW; exact RP).
      * destruct (texec_do _ _ _ _ _ E) as (z & _ & Z & ->). cbn [set_z t_z] in N1. destruct (zexec_y _ _ _ _ _ Z) as [K|(b' & EY & B)]; [exfalso|].
        { (* the step has changed something *)
          pose proof (zexec_live _ _ _ _ _ Z) as LV0. unfold zexec in Z. rewrite LV0 in Z. unfold z_do_y in Z. destruct (y_step a); [|discriminate Z].
          destruct (yexec bcast me (Yt t) a) as [y|] eqn:EY; [|discriminate Z]. injection Z as <-. cbn [z_y] in K, N1. subst y. unfold yexec in EY. destruct (y_dead _); [discriminate EY|].
          rewrite N in N1. injection N1 as <-. destruct H0 as [(ok & ->)| ->]; rewrite N in EY; destruct x as [|q0 [|?|? ?] ?|q0 s st [|?|? ?] ?|q0 s st [|?|? ?] ?|]; try discriminate EY;
            injection EY as EY; apply (f_equal y_ph) in EY; cbn [y_setph y_ph] in EY; pose proof (upd_same _ (y_ph (Yt t)) i) as U; rewrite <- EY in N; erewrite U in N by (rewrite <- EY; erewrite U by (rewrite EY in N; exact N); reflexivity); discriminate N. }
        destruct B as [-> _]. unfold yexec in EY. destruct (y_dead _); [discriminate EY|].
        unfold reported in *. cbn [set_z t_now] in *. rewrite clocks_now.
        destruct H0 as [(ok & ->)| ->]; rewrite N in EY; destruct x as [|q0 [|?|? ?] ?|q0 s st [|?|? ?] ?|q0 s st [|?|? ?] ?|]; try discriminate EY; try (destruct RP; fail);
          injection EY as EY; rewrite <- EY in N1; cbn [y_setph y_ph] in N1; rewrite (upd_same _ _ _ _ _ N) in N1; injection N1 as <-; try tauto.
      * (* Subscribe returns *)
        destruct SL as [_ SL]. cbn [slow] in SL. unfold reported in *. destruct t0 as [|f|f e']; [lia|lia|auto].
      * unfold reported in *. destruct t0 as [|f|f e']; tauto.
    + exfalso. destruct SC' as (N1 & Q1 & _). destruct EN as (-> & IS & TH & _ & _ & AB). destruct (texec_do _ _ _ _ _ E) as (z & _ & Z & ->). cbn [set_z t_z] in N1.
      pose proof (zexec_live _ _ _ _ _ Z) as LV0. unfold zexec in Z. rewrite LV0 in Z. unfold z_do_y in Z. destruct (y_step b); [|discriminate Z].
      destruct (yexec bcast me (Yt t) b) as [y|] eqn:EY; [|discriminate Z]. injection Z as <-. cbn [z_y] in N1.
      destruct (y_ends _ _ _ _ _ EY) as [D|(f' & D & [(j & q0 & s & st & tx & B & NJ & _)|(j & q0 & s & st & fl & e & e' & B & NJ & _)])].
      * apply (f_equal (filter (fun f => Nat.eqb (sd_thread f) i))) in D. unfold scans_of in RO. cbn [set_z t_z z_y] in RO. rewrite D in RO. apply (f_equal (@length _)) in RO. cbn in RO. lia.
      * assert (j = i) by (destruct AB as [K|K]; rewrite K in B; [injection B as ->; reflexivity|discriminate B]). subst j. rewrite N in NJ. injection NJ as ->. unfold reported in RP. destruct tx; [tauto|tauto|]. destruct RP as [_ RP]. discriminate RP.
      * assert (j = i) by (destruct AB as [K|K]; rewrite K in B; [discriminate B|injection B as ->; reflexivity]). subst j. subst b. unfold yexec in EY. destruct (y_dead _); [discriminate EY|]. rewrite NJ in EY. injection EY as <-. cbn [y_finish y_ph] in N1.
        rewrite (upd_same _ _ _ _ _ NJ) in N1. injection N1 as <-. discriminate Q1.
  - destruct (scan_starts _ _ _ _ _ _ E LV) as ((N1 & Q1 & Np1) & _). destruct SC' as (N2 & Q2 & Np2). rewrite N1 in N2. injection N2 as <-. rewrite Np1 in Np2. injection Np2 as <-.
    exists (t_now t). split; [split; [lia|exact Logic.I]|]. cbn [reported]. lia.
Qed.
Lemma fine_pass : forall bcast me t d t', zreach bcast me (t_z t) -> texec bcast me t (TPass d) = Some t' -> z_dead (t_z t') = false -> idle_for bcast me t d -> fine t -> fine t'.
Proof.
  intros bcast me t d t' RE E LV ID F i q x p SC. cbn [texec] in E. destruct (0 <? d) eqn:D; [|discriminate]. injection E as <-. cbn [t_z] in LV. destruct (z_live _ LV) as (YD & _).
  assert (SC0 : scans i q t x p) by exact SC. destruct (F _ _ _ _ SC0) as (c & SL & RP). exists c. split; [apply slow_pass; [lia|exact SL]|].
  destruct SC0 as (N & Q & _).
  assert (G : forall a w', y_of i a = true -> y_step a = true -> (forall e, may_fire (later t e) (ZY a) = true) -> yexec bcast me (Yt t) a = Some w' -> False).
  { intros a w' O S M E. apply (ID 0 i); [lia|]. exists (ZY a). eexists. split; [exact O|]. cbn [texec]. rewrite M. cbn [later t_z]. unfold zexec, z_do_y. rewrite LV, S, E. reflexivity. }
  assert (TX : forall w', yexec bcast me (Yt t) (YTx i true) = Some w' -> False) by (intros w' E; exact (G (YTx i true) w' (Nat.eqb_refl i) eq_refl (fun _ => eq_refl) E)).
  assert (OF : forall w', yexec bcast me (Yt t) (YOffer i) = Some w' -> False) by (intros w' E; exact (G (YOffer i) w' (Nat.eqb_refl i) eq_refl (fun _ => eq_refl) E)).
  unfold reported in *. cbn [t_now]. destruct x as [|q0 [|f|f e'] e|q0 s st tx e|q0 s st tx e|]; try exact RP; exfalso.
  - eapply TX. unfold yexec. rewrite YD, N. reflexivity.
  - eapply OF. unfold yexec. rewrite YD, N. reflexivity.
Qed.
Lemma told_step : forall bcast me t a t', texec bcast me t a = Some t' -> zreach bcast me (t_z t) -> (z_dead (t_z t) = false -> fine t) -> (forall f, In f (y_done (Yt t)) -> told f) ->
  left_at t a t' = [] /\ forall f, In f (y_done (Yt t')) -> told f.
Proof.
  intros bcast me t a t' E RE F T. 
  assert (NC : forall b f, a = TDo (ZY b) -> checked_out (Yt t) b f -> False).
  { intros b f -> (i & q & s & st & tx & -> & N & _). destruct (texec_do _ _ _ _ _ E) as (z & _ & Z & _). specialize (F (zexec_live _ _ _ _ _ Z)).
    destruct (has_thread _ _ _ _ _ RE N) as (p & Np). destruct (F i q _ p (conj N (conj eq_refl Np))) as (c & _ & RP). cbn [reported] in RP. destruct tx; [tauto|tauto|]. destruct RP as [_ RP]. discriminate RP. }
  split.
  - destruct (left_step _ _ _ _ _ E) as [K|(b & f & A & _ & _ & _ & C)]; [exact K|destruct (NC _ _ A C)].
  - destruct (t_ends _ _ _ _ _ E) as [->|(b & f & A & _ & -> & [C|(i & q & s & st & fl & e & e' & -> & N & TH & RQ & FL & RS)])]; [exact T|destruct (NC _ _ A C)|].
    intros g [<-|IN]; [|exact (T _ IN)]. subst a. destruct (texec_do _ _ _ _ _ E) as (z & _ & Z & _). specialize (F (zexec_live _ _ _ _ _ Z)).
    destruct (has_thread _ _ _ _ _ RE N) as (p & Np). destruct (F i q _ p (conj N (conj eq_refl Np))) as (c & _ & RP). cbn [reported] in RP. subst e.
    unfold told. rewrite RS, RQ, FL. destruct q as [wh| |]; cbn [scan_stops scan_result andb]; destruct fl; cbn; (split; [try discriminate; intros _; eauto|intros [[wh' K] K2]; try discriminate; reflexivity]).
Qed.
Lemma told_run : forall bcast me l t t', zreach bcast me (t_z t) -> trun bcast me t l = Some t' -> prompt bcast me t l -> (forall s, t_heard t s <= t_now t) ->
  (z_dead (t_z t) = false -> fine t) -> (forall f, In f (y_done (Yt t)) -> told f) ->
  left_behind bcast me t l = [] /\ forall f, In f (y_done (Yt t')) -> told f.
Proof.
  intros bcast me l. induction l as [|a l IH]; intros t t' RE H PR HN F T; cbn [trun] in H; [injection H as <-; split; [reflexivity|exact T]|].
  destruct (texec bcast me t a) as [t1|] eqn:E; [|discriminate]. rewrite (left_cons _ _ _ _ _ _ E). destruct (told_step _ _ _ _ _ E RE F T) as [-> T1]. cbn [app]. destruct PR as [ID PR].
  apply (IH t1 t' (reach_step _ _ _ _ _ RE E) H (PR _ E)).
  - apply (heard_now bcast me [a] t t1); [cbn [trun]; rewrite E; reflexivity|exact HN].
  - intros LV. assert (LV0 : z_dead (t_z t) = false) by (apply (live_back bcast me [a] t t1); [cbn [trun]; rewrite E; reflexivity|exact LV]). specialize (F LV0).
    destruct a as [a|d]; [exact (fine_do _ _ _ _ _ RE E LV HN F)|exact (fine_pass _ _ _ _ _ RE E LV (ID _ eq_refl) F)].
  - exact T1.
Qed.
Lemma told_all : forall bcast me l t, trun bcast me t_init l = Some t -> prompt bcast me t_init l ->
  left_behind bcast me t_init l = [] /\ forall f, In f (y_done (Yt t)) -> (sd_result f = XErr <-> (exists wh, sd_req f = QWho wh) /\ sd_failed f = true).
Proof.
  intros bcast me l t H PR. apply (told_run bcast me l t_init t (reach_init bcast me) H PR).
  - intros s. cbn. lia.
  - intros _ i q x p (N & _). cbn in N. destruct i; discriminate N.
  - intros f [].
Qed.

(** ** Subscriptions *)
Lemma unsubscribed : forall bcast me l t f, trun bcast me t_init l = Some t -> In f (y_done (Yt t)) -> ~ In (sd_sub f) (u_subs (Ut t)).
Proof.
  intros bcast me l t f H IN. destruct (zreach_y _ _ _ (reach_run _ _ _ _ _ (reach_init bcast me) H)) as (seen & I). destruct (y_fin _ _ I f IN) as [C _].
  intros S. apply (registered_iff _ _ (y_reach _ _ I)) in S. destruct S as (i & p & store & N & R).
  assert (O : In (sd_sub f) (owned p)) by (destruct p; try discriminate R; injection R as -> _; left; reflexivity).
  destruct C as (l1 & l2 & rest & C & _). assert (W : In (URet (sd_thread f) (sd_sub f) (sd_store f)) (u_log (Ut t))) by (rewrite C; apply in_or_app; right; left; reflexivity).
  destruct (gone_reach _ (y_reach _ _ I) _ _ _ W) as [_ K]. exact (K _ _ N O).
Qed.
Lemma nothing_left : forall bcast me l t, trun bcast me t_init l = Some t -> (forall i x, nth_error (y_ph (Yt t)) i = Some x -> x = YFree) ->
  u_subs (Ut t) = [] /\ u_lock (Ut t) = None.
Proof.
  intros bcast me l t H FR. destruct (zreach_y _ _ _ (reach_run _ _ _ _ _ (reach_init bcast me) H)) as (seen & I).
  assert (ID : forall i p, nth_error (u_thr (Ut t)) i = Some p -> p = UIdle).
  { intros i p N. pose proof (y_phs _ _ I i) as P. unfold phase_ok in P. rewrite N in P. destruct (nth_error (y_ph (Yt t)) i) as [x|] eqn:E; [|destruct P].
    rewrite (FR _ _ E) in P. destruct p; try (destruct P; fail). reflexivity. }
  split.
  - destruct (u_subs (Ut t)) as [|s r] eqn:E; [reflexivity|]. exfalso. assert (IN : In s (u_subs (Ut t))) by (rewrite E; left; reflexivity).
    apply (registered_iff _ _ (y_reach _ _ I)) in IN. destruct IN as (i & p & store & N & R). rewrite (ID _ _ N) in R. discriminate R.
  - destruct (u_lock (Ut t)) as [k|] eqn:L; [|reflexivity]. exfalso. pose proof (ureach_inv _ (y_reach _ _ I)) as UI. destruct (a_held _ UI k L) as (p & N).
    pose proof (proj2 (a_lock _ UI k p N) L) as K. rewrite (ID _ _ N) in K. discriminate K.
Qed.

Lemma nobody_left : forall bcast me l t, trun bcast me t_init l = Some t -> prompt bcast me t_init l -> left_behind bcast me t_init l = [].
Proof. intros bcast me l t H PR. apply (told_all _ _ _ _ H PR). Qed.
Lemma error_in_time : forall bcast me l t f, trun bcast me t_init l = Some t -> prompt bcast me t_init l -> In f (y_done (Yt t)) ->
  (sd_result f = XErr <-> (exists wh, sd_req f = QWho wh) /\ sd_failed f = true).
Proof. intros bcast me l t f H PR. apply (told_all _ _ _ _ H PR). Qed.
