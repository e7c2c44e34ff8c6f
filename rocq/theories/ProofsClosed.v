(** Proofs about requests on a closed client: C142. *)
Require Import List ZArith Bool Lia.
From Verif Require Import ModelClient ModelSystem ModelScan ModelWhole ModelTime SpecSystem SpecFair SpecTime SpecClosed.
From Verif Require ModelTsm SpecTsm ProofsTsm.
From Verif Require Import ProofsSystem ProofsSystemProps ProofsSystemLive ProofsScan ProofsWhole ProofsFair ProofsFairWhole ProofsTime.
Import ListNotations.
Import ModelTsm SpecTsm ProofsTsm.
Open Scope Z_scope.

(** ** A program that is told of nothing but errors *)
Fixpoint sour {A} (p : prog A) : Prop :=
  match p with PRet r => r = CPanic \/ exists e, r = CErr e | PTry _ k => forall e, sour (k (inl e)) end.
Lemma sour_try : forall A dest data (k : cerr + payload -> prog A), (forall e, sour (k (inl e))) -> sour (try_send dest data k).
Proof. intros A dest data k H. unfold try_send. destruct (send_dgram _ _ _); [exact H|apply H]. Qed.
Lemma rp_sour : forall n dest data last, sour (rp_prog n dest data last).
Proof. induction n as [|n IH]; intros dest data last; cbn [rp_prog]; [right; eauto|]. apply sour_try. intros e. apply IH. Qed.
Lemma wp_sour : forall n dest data last, sour (wp_prog n dest data last).
Proof. induction n as [|n IH]; intros dest data last; cbn [wp_prog]; [right; eauto|]. apply sour_try. intros e. apply IH. Qed.
Lemma rpm_sour : forall fuel n dest data last, sour (rpm_prog fuel n dest data last).
Proof. induction n as [|n IH]; intros dest data last; cbn [rpm_prog]; [right; eauto|]. apply sour_try. intros e. apply IH. Qed.
Lemma wpm_sour : forall n dest data last, sour (wpm_prog n dest data last).
Proof. induction n as [|n IH]; intros dest data last; cbn [wpm_prog]; [right; eauto|]. apply sour_try. intros e. apply IH. Qed.
Lemma sour_pmap : forall A B (f : A -> B) p, sour p -> sour (pmap f p).
Proof. induction p as [r|g k IH]; intros H; cbn in *; [destruct H as [->|(e & ->)]; [left; reflexivity|right; cbn; eauto]|]. intros e. apply IH, H. Qed.
Lemma start_sour : forall me rq id, sour (start me rq id).
Proof.
  intros me rq id. destruct rq; cbn [start]; apply sour_pmap.
  - unfold ReadProperty_prog. destruct id; [|right; eauto]. destruct (enc_NPDU _ _) as [en|]; [|left; reflexivity].
    destruct (enc_ReadProperty _ _ _) as [[en2 [x|]]|]; [right; eauto| |left; reflexivity]. apply rp_sour.
  - unfold WriteProperty_prog. destruct id; [|right; eauto]. destruct (enc_NPDU _ _) as [en|]; [|left; reflexivity].
    destruct (enc_WriteProperty _ _ _) as [[en2 x]|]; [|left; reflexivity]. destruct (eerr en2); [right; eauto|]. apply wp_sour.
  - unfold ReadMultiProperty_prog. destruct id; [|right; eauto]. destruct (dv_maxapdu d =? 0); [right; eauto|]. destruct (enc_NPDU _ _) as [en|]; [|left; reflexivity].
    destruct (enc_ReadMultipleProperty _ _ _) as [[en2 [x|]]|]; [right; eauto| |left; reflexivity]. destruct (_ <? _); [right; eauto|]. apply rpm_sour.
  - unfold WriteMultiProperty_prog. destruct id; [|right; eauto]. destruct (enc_NPDU _ _) as [en|]; [|left; reflexivity].
    destruct (enc_WriteMultiProperty _ _ _) as [[en2 x]|]; [|left; reflexivity]. destruct (eerr en2); [right; eauto|]. destruct (_ <? _); [right; eauto|]. apply wpm_sour.
Qed.
Definition unsent (h : list reply) : Prop := Forall (fun r => r = inl CSend) h.
Lemma feed_sour : forall ins h (p : prog answer) tr q, sour p -> unsent h -> feed p (map (told ins) h) = Some (tr, q) -> sour q.
Proof.
  intros ins h. induction h as [|x h IH]; intros p tr q S U F; cbn [map feed] in F; [injection F as <- <-; exact S|].
  inversion U as [|? ? E U']; subst. destruct p as [r|d k]; [discriminate|]. cbn [told] in F. destruct (feed (k (inl CSend)) _) as [[t q']|] eqn:E; [|discriminate]. injection F as <- <-.
  exact (IH _ _ _ (S CSend) U' E).
Qed.

(** ** A call that never transmits *)
Definition dry (x : phase) : Prop :=
  match x with NRun _ _ _ h _ _ | NPut _ _ _ h _ _ => unsent h | NRecv _ _ _ _ _ _ => False | _ => True end.
Lemma dry_hop : forall i x p b x' p', hop i x p b x' p' -> b <> WTx i true -> dry x -> dry x'.
Proof.
  intros i x p b x' p' H N D. destruct H; cbn [dry] in *; try exact D; try (destruct D; fail); [constructor|exfalso; apply N; reflexivity|].
  apply Forall_app. split; [exact D|constructor; [reflexivity|constructor]].
Qed.
Lemma dry_looping : forall me w i x, up me w -> nth_error (w_ph w) i = Some x -> dry x -> looping x = false.
Proof.
  intros me w i x U N D. destruct x as [|rq|rq id g h tr q| | | |]; try reflexivity. destruct q as [r|]; [|reflexivity]. destruct r; try reflexivity. exfalso.
  destruct (up_inv _ _ U) as ((l & IA) & _). pose proof (a_hist _ _ _ IA _ _ N) as HI. cbn [hist_ok dry] in *. destruct HI as [F _].
  pose proof (feed_sour _ _ _ _ _ (start_sour me rq (Some id)) D F) as S. cbn [sour] in S. destruct S as [S|(e & S)]; discriminate S.
Qed.
Lemma dry_end : forall i x p b f, ends i x p b f -> dry x -> unsent (fi_hist f).
Proof. intros i x p b f E D. destruct E; cbn in *; try constructor. exact D. Qed.
(** [seen_step] with the step of the client *)
Lemma seen_own : forall bcast me t a t' i rq x p, zreach bcast me (t_z t) -> texec bcast me t (TDo a) = Some t' -> z_dead (t_z t') = false ->
  calling i rq t x p ->
  (calling i rq t' x p /\ t_due t' i = t_due t i /\ returned_of i t' = returned_of i t) \/
  (exists b x' p', a = ZW b /\ hop i x p b x' p' /\ calling i rq t' x' p' /\ t_due t' i = due_next p b (t_now t) (t_due t i) /\ returned_of i t' = returned_of i t) \/
  (exists b f, ends i x p b f /\ returned_of i t' = f :: returned_of i t).
Proof.
  intros bcast me t a t' i rq x p RE T LV' CA. destruct (z_of i a) eqn:O.
  - destruct (texec_do _ _ _ _ _ T) as (z & M & E & ET). pose proof (zexec_live _ _ _ _ _ E) as LV.
    pose proof CA as (N & Q & Np). destruct (own_is_w _ _ _ _ _ _ _ _ RE E N Q O) as (b & -> & EW & OW). subst t'. cbn [set_z t_z t_due] in *.
    pose proof (zreach_up _ _ _ RE LV) as U. pose proof (zreach_up _ _ _ (zreach_step _ _ _ _ _ RE E) LV') as U'. right.
    destruct (own_moves _ _ _ _ _ _ _ _ U U' EW N Q Np OW) as [(f & D & EN & _)|(x' & p' & N' & Np' & H & D)].
    + right. exists b, f. split; [exact EN|]. unfold returned_of. cbn [set_z t_z]. rewrite D. cbn [filter].
      rewrite (proj2 (req_end _ _ _ _ _ _ EN Q)), Nat.eqb_refl. reflexivity.
    + left. exists b, x', p'. split; [reflexivity|]. split; [exact H|]. split; [exact (conj N' (conj (req_hop _ _ _ _ _ _ _ H Q) Np'))|].
      split; [apply due_own; assumption|]. unfold returned_of. cbn [set_z t_z]. rewrite D. reflexivity.
  - left. destruct (texec_do _ _ _ _ _ T) as (z & M & E & ET). pose proof CA as (N & Q & Np). destruct (z_other _ _ _ _ _ _ _ _ RE E N Q O) as (N' & Np' & D). subst t'.
    pose proof (zexec_live _ _ _ _ _ E) as LV. split; [split; [exact N'|split; [exact Q|cbn [set_z t_z]; rewrite <- Np; exact Np']]|]. split.
    + cbn [set_z t_due]. apply due_other; [exact O|]. intros rq' ->. unfold zexec in E. rewrite LV in E. destruct (z_free (t_z t) i) eqn:FR; [|discriminate].
      destruct (free_parts _ _ FR) as (F1 & _). rewrite N in F1. injection F1 as ->. discriminate Q.
    + unfold returned_of. cbn [set_z t_z]. destruct D as [->|(f & -> & NE)]; [reflexivity|]. cbn [filter]. rewrite (proj2 (Nat.eqb_neq _ _) NE). reflexivity.
Qed.
(** ** The result *)
Definition dried (i : nat) (rq : request) (old : list finished) (t : timed) : Prop :=
  (exists x p, calling i rq t x p /\ dry x /\ returned_of i t = old) \/
  (exists f d, returned_of i t = d ++ f :: old /\ fi_req f = rq /\ unsent (fi_hist f)).
Lemma no_send_tl : forall a l, no_send (a :: l) -> no_send l /\ forall i, a <> TDo (ZW (WTx i true)).
Proof. intros a l H. split; [intros i K; apply (H i); right; exact K|intros i ->; apply (H i); left; reflexivity]. Qed.
Lemma dried_run : forall bcast me l t t' i rq old, zreach bcast me (t_z t) -> trun bcast me t l = Some t' -> z_dead (t_z t') = false -> no_send l ->
  dried i rq old t -> dried i rq old t'.
Proof.
  intros bcast me l. induction l as [|a l IH]; intros t t' i rq old RE H LV NS S; cbn [trun] in H; [injection H as <-; exact S|].
  destruct (texec bcast me t a) as [t1|] eqn:E; [|discriminate]. pose proof (live_back _ _ _ _ _ H LV) as LV1. destruct (no_send_tl _ _ NS) as [NS1 NS0].
  apply (IH t1 t' i rq old (reach_step _ _ _ _ _ RE E) H LV NS1). destruct S as [(x & p & CA & DX & RO)|(f & d & RO & FQ & FH)].
  - destruct a as [a|d].
    + destruct (seen_own _ _ _ _ _ _ _ _ _ RE E LV1 CA) as [(CA' & _ & RO')|[(b & x' & p' & -> & H1 & CA' & _ & RO')|(b & f & EN & RO')]].
      * left. exists x, p. split; [exact CA'|]. split; [exact DX|congruence].
      * left. exists x', p'. split; [exact CA'|]. split; [|congruence]. apply (dry_hop _ _ _ _ _ _ H1); [|exact DX]. intros ->. exact (NS0 i eq_refl).
      * right. exists f, []. split; [rewrite RO', RO; reflexivity|]. split; [exact (proj1 (req_end _ _ _ _ _ _ EN (proj1 (proj2 CA))))|exact (dry_end _ _ _ _ _ EN DX)].
    + left. exists x, p. cbn [texec] in E. destruct (0 <? d); [|discriminate]. injection E as <-. auto.
  - right. destruct (returned_grows bcast me [a] t t1 i) as (d1 & RO1); [cbn [trun]; rewrite E; reflexivity|].
    exists f, (d1 ++ d). split; [rewrite RO1, RO, app_assoc; reflexivity|auto].
Qed.
Lemma first_same : forall A (d d' : list A) f f' old, d ++ f :: old = d' ++ f' :: old -> d = d' /\ f = f'.
Proof.
  intros A d d' f f' old H. change (d ++ [f] ++ old = d' ++ [f'] ++ old) in H. rewrite !app_assoc in H. apply app_inv_tail in H. apply app_inj_tail in H. exact H.
Qed.
Definition calmph (x : phase) : Prop := match x with NPut _ _ _ _ _ r => r <> CPanic | _ => True end.
Definition clean (w : world) : Prop := Forall calmph (w_ph w) /\ Forall (fun f => fi_result f <> CPanic) (w_done w).
Lemma upd_all : forall A (P : A -> Prop) l i x, Forall P l -> P x -> Forall P (upd l i x).
Proof.
  intros A P l. induction l as [|y l IH]; intros i x F H; [destruct i; constructor|]. inversion F; subst. destruct i; cbn [upd]; constructor; auto.
Qed.
Lemma clean_ph : forall w i x, clean w -> calmph x -> clean (with_ph w i x).
Proof. intros w i x [A B] H. split; cbn [with_ph w_ph w_done]; [apply upd_all; assumption|exact B]. Qed.
Lemma clean_done : forall w f, clean w -> fi_result f <> CPanic -> clean (with_done w f).
Proof. intros w f [A B] H. split; cbn [with_done w_ph w_done]; [exact A|constructor; assumption]. Qed.
Lemma clean_at : forall w i x, clean w -> nth_error (w_ph w) i = Some x -> calmph x.
Proof. intros w i x [A _] N. rewrite Forall_forall in A. apply A. eapply nth_error_In. exact N. Qed.
Lemma clean_handled : forall w i v b, clean w -> clean (handled w i v b).
Proof.
  intros w i v b C. unfold handled. pose proof (clean_ph w i NFree C Logic.I) as C1. destruct (nth_error _ _); [|exact C1]. destruct (snd _); exact C1.
Qed.
Lemma clean_received : forall w j x, clean w -> clean (received w j x).
Proof. intros w j x C. unfold received. destruct (nth_error _ _) as [[]|]; try exact C. apply clean_ph; [exact C|exact Logic.I]. Qed.
Lemma none_calm : forall me rq r, start me rq None = PRet r -> r <> CPanic.
Proof. intros me rq r H. destruct rq; cbn in H; injection H as <-; discriminate. Qed.
Lemma clean_returned : forall me w e, clean w -> clean (returned me w e).
Proof.
  intros me w e C. destruct e; cbn [returned]; try exact C.
  - destruct (nth_error (w_ph w) _) as [[]|]; try exact C. apply clean_ph; [exact C|exact Logic.I].
  - destruct (nth_error (w_ph w) _) as [[]|]; try exact C. destruct (start me rq None) eqn:E; [|apply clean_ph; [exact C|exact Logic.I]].
    apply clean_done; [apply clean_ph; [exact C|exact Logic.I]|]. exact (none_calm _ _ _ E).
  - destruct (nth_error (w_ph w) _) as [[]|] eqn:N; try exact C. apply clean_done; [apply clean_ph; [exact C|exact Logic.I]|]. exact (clean_at _ _ _ C N).
  - destruct (nth_error (w_ph w) _) as [[]|] eqn:N; try exact C. apply clean_done; [apply clean_ph; [exact C|exact Logic.I]|]. exact (clean_at _ _ _ C N).
  - destruct (nth_error (w_ph w) _) as [[]|]; try exact C. apply clean_handled. exact C.
  - cbv zeta. match goal with |- context [nth_error (w_ph ?w1) _] => assert (C1 : clean w1) by (apply clean_received; exact C) end.
    destruct (nth_error _ _) as [[]|]; try exact C1. apply clean_handled. exact C1.
  - first [apply clean_received; exact C | apply clean_ph; [exact C|exact Logic.I]].
  - first [apply clean_received; exact C | apply clean_ph; [exact C|exact Logic.I]].
  - first [apply clean_received; exact C | apply clean_ph; [exact C|exact Logic.I]].
Qed.
Lemma clean_step : forall me w a w', clean w -> wexec me w a = Some w' -> clean w'.
Proof.
  intros me w a w' C E. unfold wexec in E. destruct (w_dead w); [discriminate|]. destruct a as [|i rq|i src b|i ok|i|b].
  - destruct (ModelTsm.exec _ _) as [s|]; [|discriminate]. injection E as <-. destruct C as [A B]. split; cbn [w_ph w_done]; [|exact B].
    apply Forall_app. split; [exact A|constructor; [exact Logic.I|constructor]].
  - destruct (nth_error _ _) as [[]|]; try discriminate. destruct (ModelTsm.exec _ _) as [s|]; [|discriminate]. injection E as <-. apply clean_ph; [exact C|exact Logic.I].
  - destruct (nth_error _ _) as [[]|]; try discriminate. destruct (handleMsg _ src b) as [eff pk]. destruct (delivery eff) as [[id p]|].
    + destruct (ModelTsm.exec _ _) as [s|]; [|discriminate]. injection E as <-. destruct C as [A B]. split; cbn [w_ph w_done]; [|exact B]. apply upd_all; [exact A|exact Logic.I].
    + destruct (sy_crash _); [discriminate|]. injection E as <-. destruct pk; exact C.
  - destruct (nth_error _ _) as [[| |rq id g h tr q| | | |]|]; try discriminate. destruct q as [|d k]; [discriminate|]. destruct ok.
    + destruct (ModelTsm.exec _ _) as [s|]; [|discriminate]. injection E as <-. apply clean_ph; [exact C|exact Logic.I].
    + destruct (sy_crash _); [discriminate|]. injection E as <-. apply clean_ph; [exact C|exact Logic.I].
  - destruct (nth_error _ _) as [[| |rq id g h tr q| | | |]|]; try discriminate. destruct q as [r|]; [|discriminate].
    destruct r as [x|e| |]; try discriminate; [| |destruct (sy_crash _); [discriminate|]; injection E as <-; exact C];
    (destruct (ModelTsm.exec _ _) as [s|]; [|discriminate]; injection E as <-; apply clean_ph; [exact C|cbn; discriminate]).
  - destruct (inside b); [|discriminate]. destruct (ModelTsm.exec _ _) as [s|]; [|discriminate]. assert (C1 : clean (with_tsm w s)) by exact C.
    destruct (Nat.eqb _ _); [injection E as <-; exact C1|]. destruct (sy_log s) as [|e l]; injection E as <-; [exact C1|]. apply clean_returned. exact C1.
Qed.
Lemma clean_run : forall me l w w', clean w -> wrun me w l = Some w' -> clean w'.
Proof.
  intros me l. induction l as [|a l IH]; intros w w' C H; cbn [wrun] in H; [injection H as <-; exact C|].
  destruct (wexec me w a) as [w1|] eqn:E; [|discriminate]. exact (IH _ _ (clean_step _ _ _ _ C E) H).
Qed.
Lemma done_not_panic : forall me w f, up me w -> In f (w_done w) -> fi_result f <> CPanic.
Proof.
  intros me w f ((l & R) & _) IN. assert (C0 : clean w_init) by (split; constructor). destruct (clean_run _ _ _ _ C0 R) as [_ D].
  rewrite Forall_forall in D. exact (D f IN).
Qed.
Lemma closed_fails : forall bcast me l1 t0 i rq t1 l2 t2 f d, trun bcast me t_init l1 = Some t0 -> texec bcast me t0 (TDo (ZRequest i rq)) = Some t1 ->
  trun bcast me t1 l2 = Some t2 -> z_dead (t_z t2) = false -> no_send l2 -> returned_of i t2 = d ++ f :: returned_of i t0 ->
  fi_req f = rq /\ exists e, fi_result f = CErr e.
Proof.
  intros bcast me l1 t0 i rq t1 l2 t2 f d R1 E R2 LV NS RO. pose proof (reach_run _ _ _ _ _ (reach_init bcast me) R1) as RE.
  destruct (begins _ _ _ _ _ _ E) as (CA & NW & DU & RO1).
  assert (S : dried i rq (returned_of i t0) t1) by (left; exists (NId rq), IDSpace; split; [exact CA|]; split; [exact Logic.I|exact RO1]).
  pose proof (reach_step _ _ _ _ _ RE E) as RE1.
  destruct (dried_run _ _ _ _ _ _ _ _ RE1 R2 LV NS S) as [(x & p & _ & _ & RO2)|(f' & d' & RO2 & FQ & FH)].
  { exfalso. rewrite RO2 in RO. apply (f_equal (@length _)) in RO. rewrite app_length in RO. cbn [length] in RO. lia. }
  rewrite RO in RO2. destruct (first_same _ _ _ _ _ _ RO2) as [<- <-]. split; [exact FQ|].
  pose proof (zreach_up _ _ _ (reach_run _ _ _ _ _ RE1 R2) LV) as U.
  assert (IN : In f (w_done (z_w (t_z t2)))).
  { assert (IN : In f (returned_of i t2)) by (rewrite RO; apply in_or_app; right; left; reflexivity). unfold returned_of in IN. apply filter_In in IN. exact (proj1 IN). }
  pose proof (done_not_panic _ _ _ U IN) as NP. destruct (up_inv _ _ U) as ((l & IA) & _). pose proof (a_done _ _ _ IA f IN) as D. unfold done_ok in D.
  destruct (fi_id f) as [id|].
  - destruct D as [F _]. pose proof (feed_sour _ _ _ _ _ (start_sour me (fi_req f) (Some id)) FH F) as SO. cbn [sour] in SO. destruct SO as [SO|SO]; [contradiction|exact SO].
  - destruct D as (_ & _ & D). pose proof (start_sour me (fi_req f) None) as SO. rewrite D in SO. destruct SO as [SO|SO]; [contradiction|exact SO].
Qed.

(** ** The time *)
Definition quick (c idw : Z) (x : phase) (p : pc) (now due : Z) : Prop :=
  match x with NId _ => match p with IDSpace | IDFree => due = c + idw /\ now <= due | _ => now <= c + idw end | _ => now <= c + idw end.
Lemma quick_hop : forall ins i x p a x' p' c idw now due, fits ins x p -> hop i x p a x' p' -> quick c idw x p now due ->
  quick c idw x' p' now (due_next p a now due).
Proof.
  intros ins i x p a x' p' c idw now due F H L. destruct H as [x p b p' H| | | | | |]; cbn [quick due_next fires] in *; try lia.
  destruct x; cbn [fits] in F; try exact L; destruct H; cbn [quick due_next fires] in *; try (destruct F; fail); try lia;
    destruct p, p'; try discriminate; try (destruct F; fail).
Qed.
Lemma quick_pass : forall ins c idw x p now due d, fits ins x p -> dry x -> quick c idw x p now due -> waits p = true -> now + d <= due -> (exists rq, req_of x = Some rq) ->
  quick c idw x p (now + d) due.
Proof.
  intros ins c idw x p now due d F DX L W D (rq & Q). destruct x; try discriminate Q; cbn [fits quick dry] in *; destruct p; try discriminate W; try (destruct F; fail); try discriminate F; try (destruct DX; fail); lia.
Qed.
Definition quicked (i : nat) (rq : request) (c : Z) (old : list finished) (t : timed) : Prop :=
  (exists x p, calling i rq t x p /\ dry x /\ quick c (id_wait rq) x p (t_now t) (t_due t i) /\ returned_of i t = old) \/
  (exists f d, returned_of i t = d ++ f :: old).
Lemma quicked_run : forall bcast me l t t' i rq c old, zreach bcast me (t_z t) -> trun bcast me t l = Some t' -> prompt bcast me t l -> z_dead (t_z t') = false -> no_send l ->
  quicked i rq c old t -> quicked i rq c old t'.
Proof.
  intros bcast me l. induction l as [|a l IH]; intros t t' i rq c old RE H PR LV NS S; cbn [trun] in H; [injection H as <-; exact S|].
  destruct (texec bcast me t a) as [t1|] eqn:E; [|discriminate]. pose proof (live_back _ _ _ _ _ H LV) as LV1. cbn [prompt] in PR. destruct PR as [PA PR].
  destruct (no_send_tl _ _ NS) as [NS1 NS0]. apply (IH t1 t' i rq c old (reach_step _ _ _ _ _ RE E) H (PR _ E) LV NS1).
  destruct S as [(x & p & CA & DX & LO & RO)|(f & d & RO)].
  - assert (LV0 : z_dead (t_z t) = false) by (apply (live_back bcast me [a] t t1); [cbn [trun]; rewrite E; reflexivity|exact LV1]).
    pose proof (zreach_up _ _ _ RE LV0) as U.
    assert (F : exists ins, fits ins x p).
    { destruct CA as (N & Q & Np). destruct (in_phase _ _ _ _ U N) as (p0 & Np0 & F). rewrite Np in Np0. injection Np0 as <-. eauto. }
    destruct F as (ins & F). destruct a as [a|d].
    + pose proof (now_do _ _ _ _ _ E) as NW.
      destruct (seen_own _ _ _ _ _ _ _ _ _ RE E LV1 CA) as [(CA' & DU & RO')|[(b & x' & p' & -> & H1 & CA' & DU & RO')|(b & f & EN & RO')]].
      * left. exists x, p. rewrite DU, NW. split; [exact CA'|]. split; [exact DX|]. split; [exact LO|congruence].
      * left. exists x', p'. rewrite DU, NW. split; [exact CA'|]. split; [apply (dry_hop _ _ _ _ _ _ H1); [intros ->; exact (NS0 i eq_refl)|exact DX]|].
        split; [exact (quick_hop _ _ _ _ _ _ _ _ _ _ _ F H1 LO)|congruence].
      * right. exists f, []. rewrite RO', RO. reflexivity.
    + left. exists x, p. cbn [texec] in E. destruct (0 <? d) eqn:D; [|discriminate]. injection E as <-. split; [exact CA|]. split; [exact DX|]. cbn [t_now t_due]. split; [|exact RO].
      destruct CA as (N & Q & Np). pose proof (dry_looping _ _ _ _ U N DX) as LX.
      destruct (idle_waits bcast me t d i x p rq RE LV0) as [W1 W2]; auto; [lia|]. exact (quick_pass _ _ _ _ _ _ _ _ F DX LO W1 W2 (ex_intro _ rq Q)).
  - right. destruct (returned_grows bcast me [a] t t1 i) as (d1 & RO1); [cbn [trun]; rewrite E; reflexivity|].
    exists f, (d1 ++ d). rewrite RO1, RO, app_assoc. reflexivity.
Qed.
Lemma closed_quick : forall bcast me l1 t0 i rq t1 l2 t2, trun bcast me t_init l1 = Some t0 -> texec bcast me t0 (TDo (ZRequest i rq)) = Some t1 ->
  trun bcast me t1 l2 = Some t2 -> prompt bcast me t1 l2 -> z_dead (t_z t2) = false -> no_send l2 ->
  id_limit rq < t_now t2 - t_now t0 -> exists f d e, returned_of i t2 = d ++ f :: returned_of i t0 /\ fi_req f = rq /\ fi_result f = CErr e.
Proof.
  intros bcast me l1 t0 i rq t1 l2 t2 R1 E R2 PR LV NS LI. pose proof (reach_run _ _ _ _ _ (reach_init bcast me) R1) as RE.
  destruct (begins _ _ _ _ _ _ E) as (CA & NW & DU & RO1).
  assert (S : quicked i rq (t_now t0) (returned_of i t0) t1).
  { left. exists (NId rq), IDSpace. split; [exact CA|]. split; [exact Logic.I|]. split; [cbn [quick]; destruct rq; cbn [id_wait] in *; lia|exact RO1]. }
  destruct (quicked_run _ _ _ _ _ _ _ _ _ (reach_step _ _ _ _ _ RE E) R2 PR LV NS S) as [(x & p & (N & Q & Np) & DX & HI & _)|(f & d & RO)].
  - exfalso. assert (LM : id_limit rq = id_wait rq) by (destruct rq; reflexivity).
    destruct x; try discriminate Q; cbn [quick] in *; try lia; destruct p; lia.
  - destruct (closed_fails _ _ _ _ _ _ _ _ _ _ _ R1 E R2 LV NS RO) as [FQ (e & FE)]. exists f, d, e. auto.
Qed.
