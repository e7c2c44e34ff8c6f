(** * The calls of a shared client come to an end *)

Require Import List ZArith Bool Lia Permutation.
From Verif Require Import ModelClient ModelSystem SpecSystem.
From Verif Require ModelTsm SpecTsm ProofsTsm ProofsTsmProps.
From Verif Require Import ProofsSystem ProofsSystemProps.
Import ListNotations.
Import ModelTsm SpecTsm ProofsTsm ProofsTsmProps.
Open Scope Z_scope.

Definition up (me : option address) (w : world) : Prop :=
  (exists l, wrun me w_init l = Some w) /\ w_dead w = false /\ sy_crash (w_tsm w) = false.

Lemma wrun_app : forall me l1 l2 w w1, wrun me w l1 = Some w1 -> wrun me w (l1 ++ l2) = wrun me w1 l2.
Proof.
  intros me l1 l2. induction l1 as [|a l1 IH]; intros w w1 H; cbn [wrun app] in *.
  - injection H as ->. reflexivity.
  - destruct (wexec me w a) as [w2|]; [|discriminate]. apply IH. exact H.
Qed.

Lemma up_step : forall me w a w', up me w -> wexec me w a = Some w' ->
  w_dead w' = false -> sy_crash (w_tsm w') = false -> up me w'.
Proof.
  intros me w a w' ((l & R) & _) E D C. split; [|auto]. exists (l ++ [a]).
  rewrite (wrun_app _ _ _ _ _ R). cbn. rewrite E. reflexivity.
Qed.

Lemma up_inv : forall me w, up me w ->
  (exists l, winvA me l w) /\ winvB w /\ inv1 (w_tsm w) /\ inv2 (w_tsm w) /\ inv3 (w_tsm w) /\
  reachable defaultStateSize (w_tsm w).
Proof.
  intros me w ((l & R) & _). destruct (wreach _ _ _ R) as [IA IB].
  destruct (winvA_inv _ _ _ IA) as (I1 & I2 & I3). destruct (a_tsm _ _ _ IA) as (tl & Rt & _).
  split; [eauto|]. split; [exact IB|]. split; [exact I1|]. split; [exact I2|]. split; [exact I3|].
  exists tl. exact Rt.
Qed.

Lemma thr_of : forall me l w i x, winvA me l w -> nth_error (w_ph w) i = Some x ->
  exists p, nth_error (sy_thr (w_tsm w)) i = Some p /\ fits (w_in w) x p.
Proof.
  intros me l w i x IA N. destruct (nth_error (sy_thr (w_tsm w)) i) as [p|] eqn:E.
  - exists p. split; [reflexivity|]. eapply a_fits; eassumption.
  - apply nth_error_None in E. rewrite <- (a_len _ _ _ IA) in E. apply nth_error_None in E. congruence.
Qed.

Lemma wtsm_silent : forall me w a s, exec (w_tsm w) a = Some s -> w_dead w = false -> inside a = true ->
  sy_log s = sy_log (w_tsm w) ->
  wexec me w (WTsm a) = Some (with_tsm w s).
Proof.
  intros me w a s E D I L. unfold wexec. rewrite D, I, E, L, Nat.eqb_refl. reflexivity.
Qed.

Lemma wtsm_event : forall me w a s e, exec (w_tsm w) a = Some s -> w_dead w = false -> inside a = true ->
  sy_log s = e :: sy_log (w_tsm w) ->
  wexec me w (WTsm a) = Some (returned me (with_tsm w s) e).
Proof.
  intros me w a s e E D I L. unfold wexec. rewrite D, I, E, L.
  replace (Nat.eqb (length (e :: sy_log (w_tsm w))) (length (sy_log (w_tsm w)))) with false; [reflexivity|].
  symmetry. apply Nat.eqb_neq. cbn [length]. lia.
Qed.

(** what the others are doing stays the same *)
Definition others (i : nat) (w w' : world) : Prop :=
  w_in w' = w_in w /\
  forall j, j <> i -> nth_error (w_ph w') j = nth_error (w_ph w) j /\
                      nth_error (sy_thr (w_tsm w')) j = nth_error (sy_thr (w_tsm w)) j.

Lemma others_refl : forall i w, others i w w.
Proof. intros i w. split; auto. Qed.

Lemma others_trans : forall i w1 w2 w3, others i w1 w2 -> others i w2 w3 -> others i w1 w3.
Proof.
  intros i w1 w2 w3 [A1 A2] [B1 B2]. split; [congruence|]. intros j D.
  destruct (A2 j D), (B2 j D). split; congruence.
Qed.

(** ** Put *)

Lemma wput : forall me k w i rq id g h tr r p o, up me w ->
  nth_error (w_ph w) i = Some (NPut rq id g h tr r) -> nth_error (sy_thr (w_tsm w)) i = Some p ->
  putting p = Some (id, (o, g)) -> rank p = k ->
  exists w', wrun me w (repeat (WTsm (AStep i)) k) = Some w' /\ up me w' /\
    sy_lock (w_tsm w') = None /\ w_done w' = mkFin i rq (Some id) h tr r :: w_done w /\
    nth_error (w_ph w') i = Some NFree /\ others i w w'.
Proof.
  intros me. induction k as [|k IH]; intros w i rq id g h tr r p o U N Np P K;
    [destruct p; cbn in *; discriminate|].
  destruct (up_inv _ _ U) as ((l & IA) & IB & I1 & I2 & I3 & _).
  pose proof U as (_ & D & C).
  destruct (put_step _ i p id o g I1 I2 C Np P) as (s1 & E & C1 & Q).
  assert (exists e, (sy_log s1 = sy_log (w_tsm w) \/ (sy_log s1 = e :: sy_log (w_tsm w) /\ e = EClosed i id g) \/
                     (sy_log s1 = e :: sy_log (w_tsm w) /\ e = EPut i id g)) /\
           exists p', sy_thr s1 = upd (sy_thr (w_tsm w)) i p') as (e & Le & p1 & Th).
  { exists (hd (EClosed i id g) (sy_log s1)). clear Q.
    unfold exec in E. rewrite C, Np in E.
    destruct p; cbn in P; try discriminate; injection P as -> -> ->; cbn [step_of] in E.
    - destruct (data_of _ _); [|injection E as <-; cbn in C1; discriminate].
      destruct (closed _ _); injection E as <-; [cbn in C1; discriminate|]. fields.
      split; [right; left; split; reflexivity|eexists; reflexivity].
    - injection E as <-. fields. split; [left; reflexivity|eexists; reflexivity].
    - destruct (Nat.ltb _ _); [|discriminate]. injection E as <-. fields.
      split; [left; reflexivity|eexists; reflexivity].
    - destruct (Nat.ltb _ _); [|discriminate]. injection E as <-. fields.
      split; [left; reflexivity|eexists; reflexivity].
    - injection E as <-. fields. split; [right; right; split; reflexivity|eexists; reflexivity]. }
  assert (others i w (with_tsm w s1)) as O1.
  { split; [reflexivity|]. intros j Dj. cbn [with_tsm w_ph w_tsm]. rewrite Th. split; [reflexivity|].
    apply upd_other. auto. }
  destruct Q as [(p' & N' & P' & K')|(N' & L' & K' & T')].
  - assert (wexec me w (WTsm (AStep i)) = Some (with_tsm w s1)) as W1.
    { destruct Le as [Le|[[Le ->]|[Le ->]]].
      - apply wtsm_silent; auto.
      - erewrite wtsm_event; [|exact E|exact D|reflexivity|exact Le]. reflexivity.
      - exfalso. unfold exec in E. rewrite C, Np in E.
        destruct p; cbn in P; try discriminate; injection P as -> -> ->; cbn [step_of] in E.
        + destruct (data_of _ _); [|injection E as <-; cbn in C1; discriminate].
          destruct (closed _ _); injection E as <-; [cbn in C1; discriminate|]. revert Le. fields. congruence.
        + injection E as <-. revert Le. fields. intros Le. apply (f_equal (@length _)) in Le. cbn in Le. lia.
        + destruct (Nat.ltb _ _); [|discriminate]. injection E as <-. revert Le. fields. intros Le.
          apply (f_equal (@length _)) in Le. cbn in Le. lia.
        + destruct (Nat.ltb _ _); [|discriminate]. injection E as <-. revert Le. fields. intros Le.
          apply (f_equal (@length _)) in Le. cbn in Le. lia.
        + injection E as <-. fields. rewrite (upd_same _ _ _ _ _ Np) in N'. injection N' as <-. discriminate. }
    destruct (IH (with_tsm w s1) i rq id g h tr r p' o) as (w' & R' & U' & L' & F' & Nf' & O');
      [eapply up_step; eauto|exact N|exact N'|exact P'|lia|].
    exists w'. split; [cbn [repeat wrun]; rewrite W1; exact R'|].
    split; [exact U'|]. split; [exact L'|]. split; [exact F'|]. split; [exact Nf'|].
    eapply others_trans; eauto.
  - assert (k = 0)%nat as -> by lia.
    assert (wexec me w (WTsm (AStep i)) = Some (with_done (with_ph (with_tsm w s1) i NFree) (mkFin i rq (Some id) h tr r))) as W1.
    { erewrite wtsm_event; [|exact E|exact D|reflexivity|exact T']. cbn [returned with_tsm w_ph].
      rewrite N. reflexivity. }
    eexists. split; [cbn [repeat wrun]; rewrite W1; reflexivity|].
    split; [eapply up_step; eauto|]. cbn [w_tsm with_done with_ph with_tsm w_done w_ph].
    split; [exact L'|]. split; [reflexivity|]. split; [apply (upd_same _ _ _ _ _ N)|].
    split; [reflexivity|]. cbn [w_ph w_tsm with_done with_ph with_tsm]. intros j Dj.
    rewrite upd_other by auto. split; [reflexivity|]. rewrite Th. apply upd_other. auto.
Qed.

(** The mutex can be freed: its holder is in Put. *)
Lemma holder : forall me w k, up me w -> sy_lock (w_tsm w) = Some k ->
  exists rq id g h tr r p o, nth_error (w_ph w) k = Some (NPut rq id g h tr r) /\
    nth_error (sy_thr (w_tsm w)) k = Some p /\ putting p = Some (id, (o, g)).
Proof.
  intros me w k U L. destruct (up_inv _ _ U) as ((l & IA) & IB & I1 & I2 & I3 & _).
  destruct (i_held _ I1 k L) as [p Np]. pose proof (proj2 (i_lock _ I1 k p Np) L) as Lp.
  destruct (ph_of _ _ _ _ _ IA Np) as (x & Nx & Fx).
  destruct p; cbn in Lp; try discriminate Lp;
    destruct x; cbn [fits] in Fx; try discriminate Fx; try (destruct Fx; fail);
    try (destruct Fx as (? & _ & []); fail); destruct Fx as [-> ->]; do 8 eexists;
    (split; [exact Nx|split; [exact Np|reflexivity]]).
Qed.

Lemma unlock : forall me w i, up me w -> (forall k, sy_lock (w_tsm w) = Some k -> k <> i) ->
  exists l w', wrun me w l = Some w' /\ forallb going_on l = true /\ up me w' /\
    sy_lock (w_tsm w') = None /\
    nth_error (w_ph w') i = nth_error (w_ph w) i /\
    nth_error (sy_thr (w_tsm w')) i = nth_error (sy_thr (w_tsm w)) i /\
    w_in w' = w_in w /\ exists d, w_done w' = d ++ w_done w.
Proof.
  intros me w i U H. destruct (sy_lock (w_tsm w)) as [k|] eqn:L.
  - destruct (holder _ _ _ U L) as (rq & id & g & h & tr & r & p & o & N & Np & P).
    destruct (wput me _ w k rq id g h tr r p o U N Np P eq_refl) as (w' & R' & U' & L' & F' & _ & [O1 O2]).
    exists (repeat (WTsm (AStep k)) (rank p)), w'. split; [exact R'|].
    split; [rewrite forallb_forall; intros a Ha; apply repeat_spec in Ha; subst; reflexivity|].
    split; [exact U'|]. split; [exact L'|]. specialize (H k eq_refl).
    destruct (O2 i (fun E => H (eq_sym E))) as [Q1 Q2]. split; [exact Q1|]. split; [exact Q2|].
    split; [exact O1|]. exists [mkFin k rq (Some id) h tr r]. exact F'.
  - exists [], w. cbn. repeat split; auto; try apply U. exists []. reflexivity.
Qed.

(** ** The deferred Put of a call *)

Definition returns (r : outcome answer) : bool :=
  match r with COk _ | CErr _ => true | _ => false end.

Lemma call_returns : forall me w i rq id g h tr r, up me w -> sy_lock (w_tsm w) = None ->
  nth_error (w_ph w) i = Some (NRun rq id g h tr (PRet r)) -> returns r = true ->
  exists w', wrun me w (WRet i :: repeat (WTsm (AStep i)) 6) = Some w' /\ up me w' /\
    sy_lock (w_tsm w') = None /\ w_done w' = mkFin i rq (Some id) h tr r :: w_done w /\
    nth_error (w_ph w') i = Some NFree /\ others i w w'.
Proof.
  intros me w i rq id g h tr r U L N Rr.
  destruct (up_inv _ _ U) as ((l & IA) & IB & I1 & I2 & I3 & _). pose proof U as (_ & D & C).
  destruct (thr_of _ _ _ _ _ IA N) as (p & Np & Fp). cbn [fits] in Fp. subst p.
  set (s1 := set_pc (w_tsm w) i (PutLock id)).
  assert (exec (w_tsm w) (ACall i (CallPut id)) = Some s1) as E1.
  { unfold exec. rewrite C, Np. reflexivity. }
  set (w1 := with_ph (with_tsm w s1) i (NPut rq id g h tr r)).
  assert (wexec me w (WRet i) = Some w1) as W1.
  { unfold wexec. rewrite D, N. destruct r; try discriminate Rr; rewrite E1; reflexivity. }
  assert (up me w1) as U1 by (eapply up_step; eauto).
  destruct (b_own _ IB i _ id g N eq_refl) as [o T].
  assert (nth_error (sy_thr (w_tsm w1)) i = Some (PutLock id)) as Np1.
  { subst w1 s1. cbn [w_tsm with_ph with_tsm]. fields. apply (upd_same _ _ _ _ _ Np). }
  set (s2 := set_pc (set_lock s1 (Some i)) i (PutClose id o g)).
  assert (exec (w_tsm w1) (AStep i) = Some s2) as E2.
  { unfold exec. rewrite Np1. subst w1 s2 s1. cbn [w_tsm with_ph with_tsm]. fields. rewrite C.
    cbn [step_of]. fields. rewrite L, (in_lookup _ _ _ (i_keys _ I1) T). reflexivity. }
  set (w2 := with_tsm w1 s2).
  assert (wexec me w1 (WTsm (AStep i)) = Some w2) as W2.
  { apply wtsm_silent; [exact E2|exact D|reflexivity|reflexivity]. }
  assert (up me w2) as U2 by (eapply up_step; eauto).
  destruct (wput me 5 w2 i rq id g h tr r (PutClose id o g) o) as (w' & R' & U' & L' & F' & Nf' & O');
    [exact U2|apply (upd_same _ _ _ _ _ N)| |reflexivity|reflexivity|].
  { subst w2 s2. cbn [w_tsm with_tsm]. fields. apply (upd_same _ _ _ _ _ Np1). }
  exists w'. split.
  { cbn [wrun repeat]. rewrite W1, W2. exact R'. }
  split; [exact U'|]. split; [exact L'|]. split; [exact F'|]. split; [exact Nf'|].
  eapply others_trans; [|exact O'].
  split; [reflexivity|]. intros j Dj. subst w2 s2 w1 s1. cbn [w_tsm w_ph with_ph with_tsm]. fields.
  rewrite !upd_other by auto. split; reflexivity.
Qed.

(** ** A call that is never answered *)

Definition fine {A} (r : outcome A) : bool := match r with COk _ | CErr _ => true | _ => false end.

Fixpoint tame {A} (p : prog A) : Prop :=
  match p with PRet r => fine r = true | PTry _ k => tame (k (inl CTimeout)) end.

Fixpoint calm {A} (p : prog A) : Prop :=
  match p with PRet _ => True | PTry _ k => tame (k (inl CTimeout)) /\ forall x, calm (k x) end.

Lemma tame_try : forall A dest data (k : cerr + payload -> prog A),
  (forall e, tame (k (inl e))) -> tame (try_send dest data k).
Proof. intros A dest data k H. unfold try_send. destruct (send_dgram _ _ _); cbn; apply H. Qed.

Lemma calm_try : forall A dest data (k : cerr + payload -> prog A),
  (forall e, tame (k (inl e))) -> (forall x, calm (k x)) -> calm (try_send dest data k).
Proof.
  intros A dest data k H1 H2. unfold try_send. destruct (send_dgram _ _ _); cbn; [|apply H2].
  split; [apply H1|exact H2].
Qed.

Lemma rp_tame : forall n dest data last, tame (rp_prog n dest data last).
Proof.
  induction n; intros dest data last; cbn [rp_prog]; [reflexivity|]. apply tame_try. intros e. apply IHn.
Qed.
Lemma wp_tame : forall n dest data last, tame (wp_prog n dest data last).
Proof.
  induction n; intros dest data last; cbn [wp_prog]; [reflexivity|]. apply tame_try. intros e. apply IHn.
Qed.
Lemma rpm_tame : forall fuel n dest data last, tame (rpm_prog fuel n dest data last).
Proof.
  induction n; intros dest data last; cbn [rpm_prog]; [reflexivity|]. apply tame_try. intros e. apply IHn.
Qed.
Lemma wpm_tame : forall n dest data last, tame (wpm_prog n dest data last).
Proof.
  induction n; intros dest data last; cbn [wpm_prog]; [reflexivity|]. apply tame_try. intros e. apply IHn.
Qed.

Lemma rp_calm : forall n dest data last, calm (rp_prog n dest data last).
Proof.
  induction n; intros dest data last; cbn [rp_prog]; [exact I|].
  apply calm_try; [intros e; apply rp_tame|]. intros [e|[b|c x]]; [apply IHn| |exact I].
  destruct (check_apdu (newDecoder b)) as [[e|] d]; [apply IHn|].
  destruct (dec_ReadProperty d) as [[[o|] [e|]] d'| |]; try exact I; apply IHn.
Qed.
Lemma wp_calm : forall n dest data last, calm (wp_prog n dest data last).
Proof.
  induction n; intros dest data last; cbn [wp_prog]; [exact I|].
  apply calm_try; [intros e; apply wp_tame|]. intros [e|[b|c x]]; [apply IHn| |exact I].
  destruct (fst (check_apdu (newDecoder b))); [apply IHn|exact I].
Qed.
Lemma rpm_calm : forall fuel n dest data last, calm (rpm_prog fuel n dest data last).
Proof.
  induction n; intros dest data last; cbn [rpm_prog]; [exact I|].
  apply calm_try; [intros e; apply rpm_tame|]. intros [e|[b|c x]]; [apply IHn| |apply IHn].
  destruct (check_apdu (newDecoder b)) as [[e|] d]; [apply IHn|].
  destruct (dec_ReadMultiplePropertyAck fuel d) as [[o [e|]] d'| |]; try exact I; apply IHn.
Qed.
Lemma wpm_calm : forall n dest data last, calm (wpm_prog n dest data last).
Proof.
  induction n; intros dest data last; cbn [wpm_prog]; [exact I|].
  apply calm_try; [intros e; apply wpm_tame|]. intros [e|[b|c x]]; [apply IHn| |apply IHn].
  destruct (fst (check_apdu (newDecoder b))); [apply IHn|exact I].
Qed.

Lemma tame_pmap : forall A B (f : A -> B) p, tame p -> tame (pmap f p).
Proof.
  induction p as [r|d k IH]; cbn; intros H; [destruct r; exact H|]. apply IH. exact H.
Qed.
Lemma calm_pmap : forall A B (f : A -> B) p, calm p -> calm (pmap f p).
Proof.
  induction p as [r|d k IH]; cbn; intros H; [exact I|]. destruct H as [H1 H2].
  split; [apply tame_pmap; exact H1|]. intros x. apply IH. apply H2.
Qed.

(** A call that got its id panics at once or is tame, and calm anyway. *)
Lemma start_calm : forall me rq id, calm (start me rq (Some id)) /\
  (start me rq (Some id) = PRet CPanic \/ tame (start me rq (Some id))).
Proof.
  intros me rq id.
  assert (forall A (p : prog A) (f : A -> answer), calm p -> p = PRet CPanic \/ tame p ->
            calm (pmap f p) /\ (pmap f p = PRet CPanic \/ tame (pmap f p))) as G.
  { intros A p f H1 H2. split; [now apply calm_pmap|].
    destruct H2 as [->|H2]; [left; reflexivity|right; now apply tame_pmap]. }
  destruct rq as [dev rp|dev wp|fuel dev rp|dev wp]; cbn [start]; apply G;
    unfold ReadProperty_prog, WriteProperty_prog, ReadMultiProperty_prog, WriteMultiProperty_prog.
  - destruct (enc_NPDU _ _); [|exact I]. destruct (enc_ReadProperty _ _ _) as [[en [e|]]|]; try exact I.
    apply rp_calm.
  - destruct (enc_NPDU _ _); [|left; reflexivity].
    destruct (enc_ReadProperty _ _ _) as [[en [e|]]|]; [right; reflexivity| |left; reflexivity].
    right. apply rp_tame.
  - destruct (enc_NPDU _ _); [|exact I]. destruct (enc_WriteProperty _ _ _) as [[en e]|]; try exact I.
    destruct (eerr en); [exact I|]. apply wp_calm.
  - destruct (enc_NPDU _ _); [|left; reflexivity].
    destruct (enc_WriteProperty _ _ _) as [[en e]|]; [|left; reflexivity].
    destruct (eerr en); right; [reflexivity|]. apply wp_tame.
  - destruct (_ =? _); [exact I|]. destruct (enc_NPDU _ _); [|exact I].
    destruct (enc_ReadMultipleProperty _ _ _) as [[en [e|]]|]; try exact I.
    destruct (_ <? _); [exact I|]. apply rpm_calm.
  - destruct (_ =? _); [right; reflexivity|]. destruct (enc_NPDU _ _); [|left; reflexivity].
    destruct (enc_ReadMultipleProperty _ _ _) as [[en [e|]]|]; [right; reflexivity| |left; reflexivity].
    destruct (_ <? _); right; [reflexivity|]. apply rpm_tame.
  - destruct (enc_NPDU _ _); [|exact I]. destruct (enc_WriteMultiProperty _ _ _) as [[en e]|]; try exact I.
    destruct (eerr en); [exact I|]. destruct (_ <? _); [exact I|]. apply wpm_calm.
  - destruct (enc_NPDU _ _); [|left; reflexivity].
    destruct (enc_WriteMultiProperty _ _ _) as [[en e]|]; [|left; reflexivity].
    destruct (eerr en); [right; reflexivity|]. destruct (_ <? _); right; [reflexivity|]. apply wpm_tame.
Qed.

Lemma calm_feed : forall h (p : prog answer) tr q, calm p -> feed p h = Some (tr, q) -> calm q.
Proof.
  induction h as [|x h IH]; intros p tr q H F; cbn [feed] in F.
  - injection F as <- <-. exact H.
  - destruct p as [r|d k]; [discriminate|]. destruct (feed (k x) h) as [[t q']|] eqn:E; [|discriminate].
    injection F as <- <-. destruct H as [_ H]. eapply IH; [apply H|exact E].
Qed.

(** what comes out of a goroutine's own steps *)
Definition ended (me : option address) (w : world) (i : nat) (rq : request) : Prop :=
  exists l w' f d, wrun me w l = Some w' /\ forallb going_on l = true /\
    w_done w' = f :: d ++ w_done w /\ fi_thread f = i /\ fi_req f = rq.

Lemma ended_more : forall me w l w1 d i rq, wrun me w l = Some w1 -> forallb going_on l = true ->
  w_done w1 = d ++ w_done w -> ended me w1 i rq -> ended me w i rq.
Proof.
  intros me w l w1 d i rq R G D (l' & w' & f & d' & R' & G' & D' & F1 & F2).
  exists (l ++ l'), w', f, (d' ++ d). split; [rewrite (wrun_app _ _ _ _ _ R); exact R'|].
  split; [rewrite forallb_app, G, G'; reflexivity|].
  split; [rewrite D', D, app_assoc; reflexivity|auto].
Qed.

Lemma ended_step : forall me w a w1 i rq, wexec me w a = Some w1 -> going_on a = true ->
  w_done w1 = w_done w -> ended me w1 i rq -> ended me w i rq.
Proof.
  intros me w a w1 i rq E G D H. eapply (ended_more me w [a] w1 []); [|cbn; rewrite G; reflexivity|exact D|exact H].
  cbn. rewrite E. reflexivity.
Qed.

(** A call in Receive times out. *)
Lemma wait_over : forall me w i rq id g h tr k, up me w -> sy_lock (w_tsm w) = None ->
  nth_error (w_ph w) i = Some (NRecv rq id g h tr k) ->
  exists l w', wrun me w l = Some w' /\ forallb going_on l = true /\ up me w' /\
    sy_lock (w_tsm w') = None /\ w_done w' = w_done w /\
    nth_error (w_ph w') i = Some (NRun rq id g (h ++ [inl CTimeout]) tr (k (inl CTimeout))).
Proof.
  intros me w i rq id g h tr k U L N.
  assert (forall w, up me w -> sy_lock (w_tsm w) = None ->
    nth_error (w_ph w) i = Some (NRecv rq id g h tr k) ->
    (exists c, nth_error (sy_thr (w_tsm w)) i = Some (RecvWait id c g)) ->
    exists l w', wrun me w l = Some w' /\ forallb going_on l = true /\ up me w' /\
      sy_lock (w_tsm w') = None /\ w_done w' = w_done w /\
      nth_error (w_ph w') i = Some (NRun rq id g (h ++ [inl CTimeout]) tr (k (inl CTimeout)))) as W3.
  { clear w U L N. intros w U L N [c Np]. pose proof U as (_ & D & C).
    set (s1 := note (set_pc (w_tsm w) i PIdle) (ERecvTimeout i id)).
    assert (exec (w_tsm w) (ATimeout i) = Some s1) as E by (unfold exec; rewrite C, Np; reflexivity).
    assert (wexec me w (WTsm (ATimeout i)) =
            Some (with_ph (with_tsm w s1) i (NRun rq id g (h ++ [inl CTimeout]) tr (k (inl CTimeout))))) as W.
    { erewrite wtsm_event; [|exact E|exact D|reflexivity|reflexivity]. cbn [returned]. unfold received.
      cbn [with_tsm w_ph]. rewrite N. reflexivity. }
    eexists [_], _. split; [cbn; rewrite W; reflexivity|]. split; [reflexivity|].
    split; [eapply up_step; eauto|]. split; [exact L|]. split; [reflexivity|].
    apply (upd_same _ _ _ _ _ N). }
  assert (forall w, up me w -> sy_lock (w_tsm w) = None ->
    nth_error (w_ph w) i = Some (NRecv rq id g h tr k) ->
    (exists o, nth_error (sy_thr (w_tsm w)) i = Some (RecvEval id o g)) ->
    exists l w', wrun me w l = Some w' /\ forallb going_on l = true /\ up me w' /\
      sy_lock (w_tsm w') = None /\ w_done w' = w_done w /\
      nth_error (w_ph w') i = Some (NRun rq id g (h ++ [inl CTimeout]) tr (k (inl CTimeout)))) as W2.
  { clear w U L N. intros w U L N [o Np]. pose proof U as (_ & D & C).
    set (s1 := set_pc (w_tsm w) i (RecvWait id (data_of (w_tsm w) o) g)).
    assert (exec (w_tsm w) (AStep i) = Some s1) as E by (unfold exec; rewrite C, Np; reflexivity).
    pose proof (wtsm_silent me w _ _ E D eq_refl eq_refl) as W.
    destruct (W3 (with_tsm w s1)) as (l & w' & R & G & U' & L' & D' & N');
      [eapply up_step; eauto|exact L|exact N|eexists; apply (upd_same _ _ _ _ _ Np)|].
    exists (WTsm (AStep i) :: l), w'. split; [cbn [wrun]; rewrite W; exact R|]. auto. }
  destruct (up_inv _ _ U) as ((l & IA) & IB & I1 & I2 & I3 & _). pose proof U as (_ & D & C).
  destruct (thr_of _ _ _ _ _ IA N) as (p & Np & Fp).
  destruct p; cbn [fits] in Fp; try (destruct Fp; fail).
  - subst. destruct (b_own _ IB i _ id g N eq_refl) as [o T].
    set (s1 := set_pc (w_tsm w) i (RecvEval id o g)).
    assert (exec (w_tsm w) (AStep i) = Some s1) as E.
    { unfold exec. rewrite C, Np. cbn [step_of]. rewrite L, (in_lookup _ _ _ (i_keys _ I1) T). reflexivity. }
    pose proof (wtsm_silent me w _ _ E D eq_refl eq_refl) as W.
    destruct (W2 (with_tsm w s1)) as (l2 & w' & R & G & U' & L' & D' & N');
      [eapply up_step; eauto|exact L|exact N|eexists; apply (upd_same _ _ _ _ _ Np)|].
    exists (WTsm (AStep i) :: l2), w'. split; [cbn [wrun]; rewrite W; exact R|]. auto.
  - destruct Fp as [-> ->]. apply W2; eauto.
  - destruct Fp as [-> ->]. apply W3; eauto.
Qed.

Lemma fine_returns : forall r, fine r = returns r.
Proof. intros []; reflexivity. Qed.

(** A running call whose attempts all time out. *)
Lemma run_over : forall me i rq id g p w h tr, up me w -> sy_lock (w_tsm w) = None ->
  nth_error (w_ph w) i = Some (NRun rq id g h tr p) -> tame p -> ended me w i rq.
Proof.
  intros me i rq id g. induction p as [r|d k IH]; intros w h tr U L N T.
  - cbn in T. rewrite fine_returns in T.
    destruct (call_returns _ _ _ _ _ _ _ _ _ U L N T) as (w' & R & _ & _ & D & _ & _).
    eexists _, w', _, []. split; [exact R|]. split; [reflexivity|]. split; [exact D|]. split; reflexivity.
  - destruct (up_inv _ _ U) as ((l & IA) & IB & I1 & I2 & I3 & _). pose proof U as (_ & D & C).
    destruct (thr_of _ _ _ _ _ IA N) as (p & Np & Fp). cbn [fits] in Fp. subst p.
    set (s1 := set_pc (w_tsm w) i (RecvLock id)).
    assert (exec (w_tsm w) (ACall i (CallRecv id)) = Some s1) as E by (unfold exec; rewrite C, Np; reflexivity).
    set (w1 := with_ph (with_tsm w s1) i (NRecv rq id g h (tr ++ [d]) k)).
    assert (wexec me w (WTx i true) = Some w1) as W by (unfold wexec; rewrite D, N, E; reflexivity).
    assert (up me w1) as U1 by (eapply up_step; eauto).
    destruct (wait_over me w1 i rq id g h (tr ++ [d]) k U1 L) as (l2 & w2 & R2 & G2 & U2 & L2 & D2 & N2);
      [apply (upd_same _ _ _ _ _ N)|].
    eapply ended_step; [exact W|reflexivity|reflexivity|].
    eapply (ended_more me w1 l2 w2 []); [exact R2|exact G2|exact D2|].
    eapply IH; [exact U2|exact L2|exact N2|exact T].
Qed.

Lemma start_none : forall me rq, start me rq None = PRet (CErr CNoId).
Proof. intros me []; reflexivity. Qed.

(** A call that has not got its id. *)
Lemma id_over : forall me w i rq, up me w -> sy_lock (w_tsm w) = None ->
  nth_error (w_ph w) i = Some (NId rq) ->
  (forall id, start me rq (Some id) <> PRet CPanic) -> ended me w i rq.
Proof.
  intros me w i rq U L N NP.
  (* ID fails *)
  assert (forall w a s, up me w -> nth_error (w_ph w) i = Some (NId rq) -> inside a = true ->
    exec (w_tsm w) a = Some s -> sy_log s = ENoId i :: sy_log (w_tsm w) -> ended me w i rq) as F0.
  { clear w U L N. intros w a s U N A E Lg. pose proof U as (_ & D & C).
    pose proof (wtsm_event me w a s _ E D A Lg) as W. cbn [returned with_tsm w_ph] in W.
    rewrite N, start_none in W. eexists [_], _, _, [].
    split; [cbn [wrun]; rewrite W; reflexivity|]. split; [reflexivity|].
    split; [reflexivity|]. split; reflexivity. }
  (* ID succeeds *)
  assert (forall w id o, up me w -> nth_error (w_ph w) i = Some (NId rq) -> sy_lock (w_tsm w) = None ->
    nth_error (sy_thr (w_tsm w)) i = Some (IDLock id o) -> ended me w i rq) as F1.
  { clear w U L N. intros w id o U N L Np. pose proof U as (_ & D & C).
    set (g := sy_gen (w_tsm w)).
    set (s1 := note (set_gen (set_pc (set_table (w_tsm w) ((id, (o, g)) :: without id (sy_table (w_tsm w))))
                                      i PIdle) (S g)) (EGot i id o g)).
    assert (exec (w_tsm w) (AStep i) = Some s1) as E.
    { unfold exec. rewrite C, Np. cbn [step_of]. rewrite L. reflexivity. }
    pose proof (wtsm_event me w _ _ _ E D eq_refl eq_refl) as W. cbn [returned with_tsm w_ph] in W.
    rewrite N in W. eapply ended_step; [exact W|reflexivity|reflexivity|].
    eapply (run_over me i rq id g); [eapply up_step; eauto|exact L|apply (upd_same _ _ _ _ _ N)|].
    destruct (start_calm me rq id) as [_ [Q|Q]]; [exfalso; eapply NP; exact Q|exact Q]. }
  assert (forall w id o, up me w -> nth_error (w_ph w) i = Some (NId rq) -> sy_lock (w_tsm w) = None ->
    nth_error (sy_thr (w_tsm w)) i = Some (IDMake id o) -> ended me w i rq) as F2.
  { clear w U L N. intros w id o U N L Np. pose proof U as (_ & D & C).
    destruct (exec (w_tsm w) (AStep i)) as [s1|] eqn:E; [|unfold exec in E; rewrite C, Np in E; discriminate].
    pose proof E as E0. unfold exec in E0. rewrite C, Np in E0. cbn [step_of] in E0. injection E0 as E0.
    assert (sy_log s1 = sy_log (w_tsm w) /\ sy_lock s1 = sy_lock (w_tsm w) /\ sy_crash s1 = sy_crash (w_tsm w) /\
            sy_thr s1 = upd (sy_thr (w_tsm w)) i (IDLock id o)) as (Q1 & Q2 & Q3 & Q4)
      by (subst s1; repeat split; reflexivity).
    pose proof (wtsm_silent me w _ _ E D eq_refl Q1) as W.
    eapply ended_step; [exact W|reflexivity|reflexivity|].
    eapply (F1 _ id o); cbn [with_tsm w_tsm w_ph]; [eapply up_step; eauto; cbn; congruence|exact N|congruence|].
    rewrite Q4. apply (upd_same _ _ _ _ _ Np). }
  destruct (up_inv _ _ U) as ((l & IA) & IB & I1 & I2 & I3 & Re). pose proof U as (_ & D & C).
  destruct (thr_of _ _ _ _ _ IA N) as (p & Np & Fp).
  destruct p; cbn [fits] in Fp; try (destruct Fp; fail); clear Fp.
  - eapply (F0 w (ATimeout i)); [exact U|exact N|reflexivity|unfold exec; rewrite C, Np; reflexivity|reflexivity].
  - assert (exec (w_tsm w) (ATimeout i) = Some (set_pc (w_tsm w) i IDBack)) as E
      by (unfold exec; rewrite C, Np; reflexivity).
    pose proof (wtsm_silent me w _ _ E D eq_refl eq_refl) as W.
    assert (up me (with_tsm w (set_pc (w_tsm w) i IDBack))) as U1 by (eapply up_step; eauto).
    destruct (up_inv _ _ U1) as (_ & _ & _ & _ & _ & Re1).
    eapply ended_step; [exact W|reflexivity|reflexivity|].
    destruct (back_enabled _ _ i Re1 C) as (s & E1 & L1); [apply (upd_same _ _ _ _ _ Np)|].
    eapply (F0 _ (AStep i)); [exact U1|exact N|reflexivity|exact E1|exact L1].
  - destruct (back_enabled _ _ i Re C Np) as (s & E1 & L1).
    eapply (F0 _ (AStep i)); [exact U|exact N|reflexivity|exact E1|exact L1].
  - assert (exec (w_tsm w) (AGet i None) =
      Some (set_pc (set_objs (w_tsm w) (sy_objs (w_tsm w) ++ [None])) i (IDMake id (length (sy_objs (w_tsm w)))))) as E
      by (unfold exec; rewrite C, Np; reflexivity).
    pose proof (wtsm_silent me w _ _ E D eq_refl eq_refl) as W.
    eapply ended_step; [exact W|reflexivity|reflexivity|].
    eapply (F2 _ id (length (sy_objs (w_tsm w)))); [eapply up_step; eauto|exact N|exact L|].
    apply (upd_same _ _ _ _ _ Np).
  - eapply F2; eauto.
  - eapply F1; eauto.
Qed.

Lemma call_ends : forall me l w i x rq, wrun me w_init l = Some w -> alive w = true ->
  nth_error (w_ph w) i = Some x -> req_of x = Some rq -> stuck x = false ->
  (forall id, snd (alone (mkEnv (Some id) (fun _ _ => mkAtt true None)) me rq) <> CPanic) ->
  ended me w i rq.
Proof.
  intros me l w i x rq R Al N Rq St NP. unfold alive in Al. apply andb_prop in Al. destruct Al as [A1 A2].
  apply negb_true_iff in A1, A2.
  assert (forall id, start me rq (Some id) <> PRet CPanic) as NP'.
  { intros id E. apply (NP id). rewrite alone_interp. cbn [ev_id]. rewrite E. reflexivity. }
  assert (up me w) as U by (split; eauto).
  destruct (up_inv _ _ U) as (_ & IB & I1 & I2 & I3 & Re).
  destruct (wreach _ _ _ R) as [IA _].
  destruct (thr_of _ _ _ _ _ IA N) as (p & Np & Fp).
  destruct (sy_lock (w_tsm w)) as [k|] eqn:Lk.
  destruct (Nat.eq_dec k i) as [->|Dk].
  { (* the call is in Put already *)
    destruct (holder _ _ _ U Lk) as (rq1 & id & g & h & tr & r & q & o & N1 & Nq & P).
    rewrite N1 in N. injection N as <-. cbn in Rq. injection Rq as <-.
    destruct (wput me _ w i rq1 id g h tr r q o U N1 Nq P eq_refl) as (w' & R' & _ & _ & D & _ & _).
    eexists _, w', _, []. split; [exact R'|].
    split; [rewrite forallb_forall; intros a Ha; apply repeat_spec in Ha; subst; reflexivity|].
    split; [exact D|]. split; reflexivity. }
  all: assert (forall k', sy_lock (w_tsm w) = Some k' -> k' <> i) as NI by (intros k' Q; congruence).
  all: destruct (unlock me w i U NI) as (l1 & w1 & R1 & G1 & U1 & L1 & N1 & Np1 & _ & d & D1).
  all: eapply (ended_more me w l1 w1 d); [exact R1|exact G1|exact D1|].
  all: rewrite N in N1; rewrite Np in Np1; clear dependent p; rename N1 into Nx.
  all: destruct (up_inv _ _ U1) as ((l2 & IA1) & IB1 & I11 & _ & _ & _).
  all: destruct x as [|rq1|rq1 id g h tr q|rq1 id g h tr k2|rq1 id g h tr r|v|]; try discriminate Rq;
    cbn in Rq; injection Rq as ->.
  all: try (eapply id_over; eassumption).
  all: try (eapply run_over; [exact U1|exact L1|exact Nx|];
            destruct (a_hist _ _ _ IA1 _ _ Nx) as [F _];
            pose proof (calm_feed _ _ _ _ (proj1 (start_calm me rq id)) F) as Q;
            destruct q as [[]|]; cbn in *; try discriminate; try reflexivity; apply Q).
  all: try (destruct (wait_over me w1 i rq id g h tr k2 U1 L1 Nx) as (l3 & w3 & R3 & G3 & U3 & L3 & D3 & N3);
            eapply (ended_more me w1 l3 w3 []); [exact R3|exact G3|exact D3|];
            eapply run_over; [exact U3|exact L3|exact N3|];
            destruct (a_hist _ _ _ IA1 _ _ Nx) as [(tr0 & d0 & _ & F) _];
            pose proof (calm_feed _ _ _ _ (proj1 (start_calm me rq id)) F) as Q; apply Q).
  all: destruct (thr_of _ _ _ _ _ IA1 Nx) as (p & Np & Fp).
  all: destruct (b_own _ IB1 i _ id g Nx eq_refl) as [o T].
  all: assert (locked p = false) as Lp by
         (destruct (locked p) eqn:Q; [|reflexivity]; apply (i_lock _ I11 i p Np) in Q; congruence).
  all: destruct p; cbn [fits] in Fp; try (destruct Fp; fail); try discriminate Lp; subst.
  all: pose proof U1 as (_ & Dd & Cc).
  all: assert (exec (w_tsm w1) (AStep i) = Some (set_pc (set_lock (w_tsm w1) (Some i)) i (PutClose id o g))) as E
         by (unfold exec; rewrite Cc, Np; cbn [step_of]; rewrite L1, (in_lookup _ _ _ (i_keys _ I11) T); reflexivity).
  all: pose proof (wtsm_silent me w1 _ _ E Dd eq_refl eq_refl) as W.
  all: eapply ended_step; [exact W|reflexivity|reflexivity|].
  all: match type of W with _ = Some ?w2 =>
         destruct (wput me 5 w2 i rq id g h tr r (PutClose id o g) o) as (w' & R' & _ & _ & D & _ & _);
           [eapply up_step; eauto|exact Nx|apply (upd_same _ _ _ _ _ Np)|reflexivity|reflexivity|] end.
  all: eexists _, w', _, []; split; [exact R'|]; split; [reflexivity|]; split; [exact D|]; split; reflexivity.
Qed.

(** ** An answer reaches its call *)

Lemma delivered_once : forall known src b id p,
  In (ModelClient.EDeliver id p) (fst (handleMsg known src b)) ->
  delivery (fst (handleMsg known src b)) = Some (id, p).
Proof.
  intros known src b id p.
  assert (forall a e, (forall i q, ~ In (ModelClient.EDeliver i q) a) ->
    (exists i q, e = [ModelClient.EDeliver i q]) \/ (forall i q, ~ In (ModelClient.EDeliver i q) e) ->
    In (ModelClient.EDeliver id p) (a ++ e) -> delivery (a ++ e) = Some (id, p)) as G.
  { induction a as [|x a IH]; intros e H1 H2 I; cbn [app] in *.
    - destruct H2 as [(i & q & ->)|H2]; [|exfalso; eapply H2; exact I].
      destruct I as [E|[]]. injection E as -> ->. reflexivity.
    - destruct I as [->|I]; [exfalso; eapply H1; left; reflexivity|].
      destruct x; [exfalso; eapply H1; left; reflexivity| | |]; cbn [delivery];
        (apply IH; [intros i9 q9 Q; eapply H1; right; exact Q|exact H2|exact I]). }
  unfold handleMsg. destruct (dec_BVLC _) as [h d]. destruct (derr d); [intros []|].
  destruct (_ || _); [|intros []]. destruct (dec_NPDU d) as [[[n nets] err] d']. destruct err; [intros []|].
  set (pubs := if n_netmsg n then _ else _).
  assert (forall i q, ~ In (ModelClient.EDeliver i q) pubs) as P.
  { intros i q. subst pubs. destruct (n_netmsg n); [|intros []].
    destruct (_ =? _), (_ =? _); cbn; intuition discriminate. }
  destruct (handle_apdu known src n d') as [[eff pan] early] eqn:HA.
  assert ((exists i q, eff = [ModelClient.EDeliver i q]) \/ (forall i q, ~ In (ModelClient.EDeliver i q) eff)) as Q.
  { revert HA. unfold handle_apdu. destruct (dec_APDU d') as [[a e] d2].
    destruct e; [intros E; injection E as <- <- <-; right; intros i q []|].
    destruct (p_type a =? pduUnconfirmed).
    - destruct (p_uservice a =? usvcIAm); [|intros E; injection E as <- <- <-; right; intros i q []].
      destruct (dec_IAm _) as [[ia [e|]] d3| |]; intros E; injection E as <- <- <-;
        right; intros i q; cbn; intuition discriminate.
    - destruct ((p_type a =? pduSimpleAck) || _ || _); [intros E; injection E as <- <- <-; left; eauto|].
      destruct (p_type a =? pduError); intros E; injection E as <- <- <-; [left; eauto|right; intros i q []]. }
  destruct (pan || early); cbn [fst]; apply G; assumption.
Qed.

Lemma answer_taken : forall me l w i j rq id g h tr k c src b p,
  wrun me w_init l = Some w -> alive w = true -> sy_lock (w_tsm w) = None ->
  nth_error (w_ph w) i = Some NFree ->
  nth_error (w_ph w) j = Some (NRecv rq id g h tr k) ->
  nth_error (sy_thr (w_tsm w)) j = Some (RecvWait id c g) ->
  In (ModelClient.EDeliver id p) (fst (handleMsg (fun _ => true) src b)) ->
  snd (handleMsg (fun _ => true) src b) = false ->
  exists w', wrun me w [WArrive i src b; WTsm (AStep i); WTsm (AStep i); WTsm (ADeliver i j)] = Some w' /\
    up me w' /\ sy_lock (w_tsm w') = None /\ w_done w' = w_done w /\
    nth_error (w_ph w') j = Some (NRun rq id g (h ++ [inr (length (w_in w))]) tr (k (inr p))).
Proof.
  intros me l w i j rq id g h tr k c src b p R Al L Ni Nj Npj Dl Pn.
  unfold alive in Al. apply andb_prop in Al. destruct Al as [D C]. apply negb_true_iff in D, C.
  assert (up me w) as U by (split; eauto).
  destruct (up_inv _ _ U) as ((l' & IA) & IB & I1 & I2 & I3 & Re).
  destruct (thr_of _ _ _ _ _ IA Ni) as (q & Np & Fp). cbn [fits] in Fp. subst q.
  apply delivered_once in Dl.
  set (v := length (w_in w)) in *.
  set (s1 := set_pc (w_tsm w) i (SendLock id (Z.of_nat v))).
  assert (exec (w_tsm w) (ACall i (CallSend id (Z.of_nat v))) = Some s1) as E1
    by (unfold exec; rewrite C, Np; reflexivity).
  set (w1 := mkW s1 (upd (w_ph w) i (NHandle v)) (w_in w ++ [mkArr src b id p]) (w_done w) (w_dead w)).
  assert (wexec me w (WArrive i src b) = Some w1) as W1.
  { unfold wexec. rewrite D, Ni. destruct (handleMsg (fun _ => true) src b) as [eff pan].
    cbn [fst] in Dl. rewrite Dl. fold v. rewrite E1. subst w1. rewrite D. reflexivity. }
  assert (up me w1) as U1 by (eapply up_step; eauto).
  destruct (up_inv _ _ U1) as ((l1 & IA1) & IB1 & I11 & I21 & I31 & Re1).
  assert (i <> j) as Dij by (intros ->; congruence).
  destruct (reply_delivered defaultStateSize s1 i j id (Z.of_nat v) c g Re1) as (s' & t & Rs & Lg & Ni' & Nj').
  - exact C.
  - exact L.
  - subst s1. fields. rewrite upd_other by exact Dij. exact Npj.
  - subst s1. fields. apply (upd_same _ _ _ _ _ Np).
  - intros kk. apply (b_open _ IB1 j (NRecv rq id g h tr k)); [|reflexivity|reflexivity].
    subst w1. cbn [w_ph]. rewrite upd_other by exact Dij. exact Nj.
  - cbn [run] in Rs.
    destruct (exec s1 (AStep i)) as [s2|] eqn:E2; [|discriminate].
    destruct (exec s2 (AStep i)) as [s3|] eqn:E3; [|discriminate].
    destruct (exec s3 (ADeliver i j)) as [s4|] eqn:E4; [|discriminate]. injection Rs as ->.
    assert (exists o, In (id, (o, g)) (sy_table s1)) as [o T]
      by (destruct (b_own _ IB j _ id g Nj eq_refl) as [o T]; exists o; exact T).
    assert (nth_error (sy_thr s1) i = Some (SendLock id (Z.of_nat v))) as Np1
      by (subst s1; fields; apply (upd_same _ _ _ _ _ Np)).
    assert (s2 = note (set_pc s1 i (SendEval id (Z.of_nat v) o g)) (ESendFound i id (Z.of_nat v) g)) as Q2.
    { unfold exec in E2. rewrite Np1 in E2. subst s1. fields. rewrite C in E2. cbn [step_of] in E2. fields.
      rewrite L, (in_lookup _ _ _ (i_keys _ I1) T) in E2. injection E2 as <-. reflexivity. }
    assert (nth_error (sy_thr s2) i = Some (SendEval id (Z.of_nat v) o g)) as Np2
      by (subst s2; fields; apply (upd_same _ _ _ _ _ Np1)).
    assert (s3 = set_pc s2 i (SendWait id (Z.of_nat v) (data_of s2 o) g)) as Q3.
    { unfold exec in E3. rewrite Np2 in E3. destruct (sy_crash s2); [discriminate|]. cbn [step_of] in E3.
      injection E3 as <-. reflexivity. }
    assert (sy_log s' = EDeliver i id g j id g (Z.of_nat v) :: sy_log s3 /\ sy_lock s' = sy_lock s3 /\ sy_crash s' = false) as (Lg4 & Lk4 & Cr4).
    { pose proof E4 as E5. unfold exec in E5. destruct (sy_crash s3) eqn:C3; [discriminate|].
      destruct (nth_error (sy_thr s3) i) as [[]|]; try discriminate.
      destruct c0; [|discriminate].
      destruct (nth_error (sy_thr s3) j) as [[]|]; try discriminate.
      destruct c0; [|discriminate]. destruct (_ && _); [|discriminate].
      injection E5 as <-. fields. injection Lg as <- <- <- <- <- <-. auto. }
    assert (wexec me w1 (WTsm (AStep i)) = Some (with_tsm w1 s2)) as W2.
    { erewrite wtsm_event; [|exact E2|exact D|reflexivity|subst s2; reflexivity]. reflexivity. }
    assert (wexec me (with_tsm w1 s2) (WTsm (AStep i)) = Some (with_tsm w1 s3)) as W3.
    { erewrite (wtsm_silent me (with_tsm w1 s2)); [|exact E3|exact D|reflexivity|subst s3; reflexivity]. reflexivity. }
    set (w4 := with_ph (with_tsm w1 s') j (NRun rq id g (h ++ [inr v]) tr (k (inr p)))).
    assert (wexec me (with_tsm w1 s3) (WTsm (ADeliver i j)) = Some (with_ph w4 i NFree)) as W4.
    { erewrite wtsm_event; [|exact E4|exact D|reflexivity|exact Lg4]. cbn [returned].
      assert (received (with_tsm (with_tsm w1 s3) s') j (inr (Z.to_nat (Z.of_nat v))) = w4) as Rv.
      { unfold received. subst w1. cbn [with_tsm w_ph]. rewrite upd_other by exact Dij. rewrite Nj.
        rewrite Nat2Z.id. unfold load_of. cbn [w_in with_tsm]. unfold v.
        rewrite nth_error_app2 by apply Nat.le_refl. rewrite Nat.sub_diag. reflexivity. }
      rewrite Rv. subst w4 w1. cbn [with_ph with_tsm w_ph].
      rewrite upd_other by auto. rewrite (upd_same _ _ _ _ _ Ni).
      unfold handled. cbn [with_ph w_in with_tsm w_ph].
      unfold v. rewrite nth_error_app2 by apply Nat.le_refl. rewrite Nat.sub_diag. cbn [nth_error ar_src ar_bytes].
      rewrite Pn. reflexivity. }
    exists (with_ph w4 i NFree).
    assert (up me (with_tsm w1 s2)) as U2 by (eapply up_step; [exact U1|exact W2|exact D|subst s2; exact C]).
    assert (up me (with_tsm w1 s3)) as U3 by (eapply up_step; [exact U2|exact W3|exact D|subst s3 s2; exact C]).
    split; [cbn [wrun]; rewrite W1, W2, W3, W4; reflexivity|].
    split; [eapply up_step; [exact U3|exact W4|exact D|exact Cr4]|].
    split; [cbn [w_tsm with_ph w4 with_tsm]; rewrite Lk4; subst s3 s2; exact L|].
    split; [reflexivity|].
    cbn [with_ph w_ph w4 with_tsm w1]. rewrite upd_other by exact Dij.
    apply (upd_same _ _ _ _ (NRecv rq id g h tr k)). rewrite upd_other by exact Dij. exact Nj.
Qed.

Lemma answer_ends_call : forall me l w i j rq id g h tr k c src b p r,
  wrun me w_init l = Some w -> alive w = true -> sy_lock (w_tsm w) = None ->
  nth_error (w_ph w) i = Some NFree ->
  nth_error (w_ph w) j = Some (NRecv rq id g h tr k) ->
  nth_error (sy_thr (w_tsm w)) j = Some (RecvWait id c g) ->
  In (ModelClient.EDeliver id p) (fst (handleMsg (fun _ => true) src b)) ->
  snd (handleMsg (fun _ => true) src b) = false ->
  k (inr p) = PRet r -> returns r = true ->
  exists w', wrun me w ([WArrive i src b; WTsm (AStep i); WTsm (AStep i); WTsm (ADeliver i j); WRet j] ++
                        repeat (WTsm (AStep j)) 6) = Some w' /\
    alive w' = true /\
    w_done w' = mkFin j rq (Some id) (h ++ [inr (length (w_in w))]) tr r :: w_done w.
Proof.
  intros me l w i j rq id g h tr k c src b p r R Al L Ni Nj Npj Dl Pn Kr Rr.
  destruct (answer_taken me l w i j rq id g h tr k c src b p) as (w1 & R1 & U1 & L1 & D1 & N1); auto.
  rewrite Kr in N1.
  destruct (call_returns me w1 j rq id g _ tr r U1 L1 N1 Rr) as (w2 & R2 & U2 & _ & D2 & _ & _).
  exists w2. split.
  - change (wrun me w (([WArrive i src b; WTsm (AStep i); WTsm (AStep i); WTsm (ADeliver i j)] ++
              WRet j :: repeat (WTsm (AStep j)) 6)) = Some w2).
    rewrite (wrun_app _ _ _ _ _ R1). exact R2.
  - destruct U2 as (_ & A1 & A2). split; [unfold alive; rewrite A1, A2; reflexivity|].
    rewrite D2, D1. reflexivity.
Qed.

(** ** A new call gets its id *)

Lemma call_gets_id : forall me l w i rq, wrun me w_init l = Some w -> alive w = true ->
  forallb no_call (w_ph w) = true -> nth_error (w_ph w) i = Some NFree ->
  exists id g w', wrun me w [WCall i rq; WTsm (AStep i); WTsm (AStep i); WTsm (AGet i None);
                             WTsm (AStep i); WTsm (AStep i)] = Some w' /\ alive w' = true /\
    1 <= id <= 254 /\ nth_error (w_ph w') i = Some (NRun rq id g [] [] (start me rq (Some id))).
Proof.
  intros me l w i rq R Al F Ni.
  destruct (all_back _ _ _ R F) as (_ & Pm & Sp & Tb & Lk & _).
  pose proof Al as Al0. unfold alive in Al. apply andb_prop in Al. destruct Al as [D C]. apply negb_true_iff in D, C.
  assert (up me w) as U by (split; eauto).
  destruct (up_inv _ _ U) as ((l' & IA) & IB & I1 & I2 & I3 & Re).
  destruct (thr_of _ _ _ _ _ IA Ni) as (q & Np & Fp). cbn [fits] in Fp. subst q.
  destruct (sy_ids (w_tsm w)) as [|id ids] eqn:Ids.
  { exfalso. apply Permutation_nil in Pm. discriminate. }
  set (s0 := w_tsm w) in *.
  set (s1 := set_pc s0 i IDSpace).
  set (s2 := set_pc (set_space s1 19) i IDFree).
  set (s3 := set_pc (set_ids s2 ids) i (IDGet id)).
  set (o := length (sy_objs s3)).
  set (s4 := set_pc (set_objs s3 (sy_objs s3 ++ [None])) i (IDMake id o)).
  set (s5 := set_pc (set_chans (set_objs s4 (upd (sy_objs s4) o (Some (length (sy_chans s4)))))
                               (sy_chans s4 ++ [false])) i (IDLock id o)).
  set (g := sy_gen s5).
  set (s6 := note (set_gen (set_pc (set_table s5 ((id, (o, g)) :: without id (sy_table s5))) i PIdle) (S g)) (EGot i id o g)).
  assert (nth_error (sy_thr s1) i = Some IDSpace) as N1 by apply (upd_same _ _ _ _ _ Np).
  assert (nth_error (sy_thr s2) i = Some IDFree) as N2 by apply (upd_same _ _ _ _ _ N1).
  assert (nth_error (sy_thr s3) i = Some (IDGet id)) as N3 by apply (upd_same _ _ _ _ _ N2).
  assert (nth_error (sy_thr s4) i = Some (IDMake id o)) as N4 by apply (upd_same _ _ _ _ _ N3).
  assert (nth_error (sy_thr s5) i = Some (IDLock id o)) as N5 by apply (upd_same _ _ _ _ _ N4).
  assert (sy_crash s1 = false /\ sy_crash s2 = false /\ sy_crash s3 = false /\ sy_crash s4 = false /\ sy_crash s5 = false) as (C1 & C2 & C3 & C4 & C5)
    by (repeat split; exact C).
  assert (sy_space s1 = 20%nat) as Sp1 by exact Sp.
  assert (sy_ids s2 = id :: ids) as Id2 by exact Ids.
  assert (sy_lock s5 = None) as L5 by exact Lk.
  assert (exec s0 (ACall i CallID) = Some s1) as E1 by (unfold exec; rewrite C, Np; reflexivity).
  assert (exec s1 (AStep i) = Some s2) as E2 by (unfold exec; rewrite C1, N1; cbn [step_of]; rewrite Sp1; reflexivity).
  assert (exec s2 (AStep i) = Some s3) as E3 by (unfold exec; rewrite C2, N2; cbn [step_of]; rewrite Id2; reflexivity).
  assert (exec s3 (AGet i None) = Some s4) as E4 by (unfold exec; rewrite C3, N3; reflexivity).
  assert (exec s4 (AStep i) = Some s5) as E5 by (unfold exec; rewrite C4, N4; reflexivity).
  assert (exec s5 (AStep i) = Some s6) as E6 by (unfold exec; rewrite C5, N5; cbn [step_of]; rewrite L5; reflexivity).
  set (w1 := with_ph (with_tsm w s1) i (NId rq)).
  assert (wexec me w (WCall i rq) = Some w1) as W1 by (unfold wexec; fold s0; rewrite D, Ni, E1; reflexivity).
  pose proof (wtsm_silent me w1 _ _ E2 D eq_refl eq_refl) as W2.
  pose proof (wtsm_silent me (with_tsm w1 s2) _ _ E3 D eq_refl eq_refl) as W3.
  pose proof (wtsm_silent me (with_tsm w1 s3) _ _ E4 D eq_refl eq_refl) as W4.
  pose proof (wtsm_silent me (with_tsm w1 s4) _ _ E5 D eq_refl eq_refl) as W5.
  pose proof (wtsm_event me (with_tsm w1 s5) _ _ _ E6 D eq_refl eq_refl) as W6.
  assert (nth_error (w_ph w1) i = Some (NId rq)) as Nw by apply (upd_same _ _ _ _ _ Ni).
  cbn [returned] in W6.
  change (w_ph (with_tsm (with_tsm w1 s5) s6)) with (w_ph w1) in W6. rewrite Nw in W6.
  exists id, g, (with_ph (with_tsm w1 s6) i (NRun rq id g [] [] (start me rq (Some id)))).
  split.
  { cbn [wrun]. rewrite W1, W2.
    change (with_tsm (with_tsm w1 s2) s3) with (with_tsm w1 s3) in W3. rewrite W3.
    change (with_tsm (with_tsm w1 s3) s4) with (with_tsm w1 s4) in W4. rewrite W4.
    change (with_tsm (with_tsm w1 s4) s5) with (with_tsm w1 s5) in W5. rewrite W5.
    change (with_tsm (with_tsm w1 s5) s6) with (with_tsm w1 s6) in W6. rewrite W6. reflexivity. }
  split; [exact Al0|].
  split; [|apply (upd_same _ _ _ _ _ Nw)].
  apply all_ids_range. eapply Permutation_in; [exact Pm|]. left. reflexivity.
Qed.
