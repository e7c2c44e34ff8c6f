(** * Requests return in every fair execution *)
Require Import List ZArith Bool Lia.
From Verif Require Import ModelClient ModelSystem ModelScan ModelWhole SpecSystem SpecFair.
From Verif Require ModelTsm SpecTsm ProofsTsm ProofsTsmProps ModelUtsm ProofsServiceProps.
From Verif Require Import ProofsSystem ProofsSystemProps ProofsSystemLive ProofsWhole.
Import ListNotations.
Import ModelTsm SpecTsm ProofsTsm ProofsTsmProps.
Open Scope Z_scope.

(** ** How deep the calls are *)
Fixpoint depth {A} (n : nat) (p : prog A) {struct p} : Prop :=
  match p with
  | PRet _ => True
  | PTry _ k => match n with O => False | S m => forall x, depth m (k x) end
  end.
Lemma depth_S : forall A (p : prog A) n, depth n p -> depth (S n) p.
Proof.
  induction p as [r|g k IH]; intros n H; [exact I|]. destruct n as [|n]; [destruct H|]. cbn in *. intros x. apply IH. apply H.
Qed.
Lemma depth_try : forall A n dest data (k : cerr + payload -> prog A), (forall x, depth n (k x)) -> depth (S n) (try_send dest data k).
Proof. intros A n dest data k H. unfold try_send. destruct (send_dgram _ _ _); [exact H|]. apply depth_S, H. Qed.
Lemma rp_depth : forall n dest data last, depth n (rp_prog n dest data last).
Proof.
  induction n; intros dest data last; [exact I|]. cbn [rp_prog]. apply depth_try. intros [e|[b|c x]]; [apply IHn| |exact I].
  destruct (check_apdu (newDecoder b)) as [[e|] d]; [apply IHn|].
  destruct (dec_ReadProperty d) as [[[o|] [e|]] d'| |]; try exact I; apply IHn.
Qed.
Lemma wp_depth : forall n dest data last, depth n (wp_prog n dest data last).
Proof.
  induction n; intros dest data last; [exact I|]. cbn [wp_prog]. apply depth_try. intros [e|[b|c x]]; [apply IHn| |exact I].
  destruct (fst (check_apdu (newDecoder b))); [apply IHn|exact I].
Qed.
Lemma rpm_depth : forall fuel n dest data last, depth n (rpm_prog fuel n dest data last).
Proof.
  induction n; intros dest data last; [exact I|]. cbn [rpm_prog]. apply depth_try. intros [e|[b|c x]]; [apply IHn| |apply IHn].
  destruct (check_apdu (newDecoder b)) as [[e|] d]; [apply IHn|].
  destruct (dec_ReadMultiplePropertyAck fuel d) as [[o [e|]] d'| |]; try exact I; apply IHn.
Qed.
Lemma wpm_depth : forall n dest data last, depth n (wpm_prog n dest data last).
Proof.
  induction n; intros dest data last; [exact I|]. cbn [wpm_prog]. apply depth_try. intros [e|[b|c x]]; [apply IHn| |apply IHn].
  destruct (fst (check_apdu (newDecoder b))); [apply IHn|exact I].
Qed.
Lemma depth_pmap : forall A B (f : A -> B) p n, depth n p -> depth n (pmap f p).
Proof.
  induction p as [r|g k IH]; intros n H; [exact I|]. destruct n as [|n]; [destruct H|]. cbn in *. intros x. apply IH. apply H.
Qed.
Lemma start_depth : forall me rq id, depth 2 (start me rq id).
Proof.
  intros me rq id. destruct rq; cbn [start]; apply depth_pmap.
  - unfold ReadProperty_prog. destruct id; [|exact I]. destruct (enc_NPDU _ _) as [en|]; [|exact I].
    destruct (enc_ReadProperty _ _ _) as [[en2 [x|]]|]; try exact I. apply depth_S, rp_depth.
  - unfold WriteProperty_prog. destruct id; [|exact I]. destruct (enc_NPDU _ _) as [en|]; [|exact I].
    destruct (enc_WriteProperty _ _ _) as [[en2 x]|]; try exact I. destruct (eerr en2); [exact I|]. apply wp_depth.
  - unfold ReadMultiProperty_prog. destruct id; [|exact I]. destruct (dv_maxapdu d =? 0); [exact I|]. destruct (enc_NPDU _ _) as [en|]; [|exact I].
    destruct (enc_ReadMultipleProperty _ _ _) as [[en2 [x|]]|]; try exact I. destruct (_ <? _); [exact I|]. apply rpm_depth.
  - unfold WriteMultiProperty_prog. destruct id; [|exact I]. destruct (enc_NPDU _ _) as [en|]; [|exact I].
    destruct (enc_WriteMultiProperty _ _ _) as [[en2 x]|]; try exact I. destruct (eerr en2); [exact I|]. destruct (_ <? _); [exact I|]. apply wpm_depth.
Qed.
Lemma feed_depth : forall h (p : prog answer) n tr q, depth n p -> feed p h = Some (tr, q) -> (length h <= n)%nat /\ depth (n - length h) q.
Proof.
  induction h as [|x h IH]; intros p n tr q H F; cbn [feed] in F.
  - injection F as <- <-. cbn. rewrite Nat.sub_0_r. split; [lia|exact H].
  - destruct p as [r|d k]; [discriminate|]. destruct (feed (k x) h) as [[t q']|] eqn:E; [|discriminate].
    injection F as <- <-. destruct n as [|n]; [destruct H|]. destruct (IH _ _ _ _ (H x) E) as [L D]. cbn [length]. split; [lia|exact D].
Qed.
(** only lists loop *)
Fixpoint ends_well {A} (p : prog A) : Prop := match p with PRet r => r <> CDiverge | PTry _ k => forall x, ends_well (k x) end.
Lemma ends_try : forall A dest data (k : cerr + payload -> prog A), (forall x, ends_well (k x)) -> ends_well (try_send dest data k).
Proof. intros A dest data k H. unfold try_send. destruct (send_dgram _ _ _); [exact H|apply H]. Qed.
Lemma ends_pmap : forall A B (f : A -> B) p, ends_well p -> ends_well (pmap f p).
Proof. induction p as [r|g k IH]; intros H; cbn in *; [destruct r; cbn; congruence|]. intros x. apply IH, H. Qed.
Lemma rp_ends : forall n dest data last, ends_well (rp_prog n dest data last).
Proof.
  induction n; intros dest data last; [discriminate|]. cbn [rp_prog]. apply ends_try. intros [e|[b|c x]]; [apply IHn| |discriminate].
  destruct (check_apdu (newDecoder b)) as [[e|] d] eqn:C; [apply IHn|].
  pose proof (proj2 (ProofsServiceProps.read_terminates b)) as T. rewrite C in T. cbn [snd] in T.
  destruct (dec_ReadProperty d) as [[[o|] [e|]] d'| |]; try apply IHn; try discriminate; [destruct (derr d'); discriminate|destruct (T eq_refl)].
Qed.
Lemma wp_ends : forall n dest data last, ends_well (wp_prog n dest data last).
Proof.
  induction n; intros dest data last; [discriminate|]. cbn [wp_prog]. apply ends_try. intros [e|[b|c x]]; [apply IHn| |discriminate].
  destruct (fst (check_apdu (newDecoder b))); [apply IHn|discriminate].
Qed.
Lemma wpm_ends : forall n dest data last, ends_well (wpm_prog n dest data last).
Proof.
  induction n; intros dest data last; [discriminate|]. cbn [wpm_prog]. apply ends_try. intros [e|[b|c x]]; [apply IHn| |apply IHn].
  destruct (fst (check_apdu (newDecoder b))); [apply IHn|discriminate].
Qed.
Lemma start_ends : forall me rq id, lists rq = false -> ends_well (start me rq id).
Proof.
  intros me rq id L. destruct rq; try discriminate L; cbn [start]; apply ends_pmap.
  - unfold ReadProperty_prog. destruct id; [|discriminate]. destruct (enc_NPDU _ _) as [en|]; [|discriminate].
    destruct (enc_ReadProperty _ _ _) as [[en2 [x|]]|]; try discriminate. apply rp_ends.
  - unfold WriteProperty_prog. destruct id; [|discriminate]. destruct (enc_NPDU _ _) as [en|]; [|discriminate].
    destruct (enc_WriteProperty _ _ _) as [[en2 x]|]; try discriminate. destruct (eerr en2); [discriminate|]. apply wp_ends.
  - unfold WriteMultiProperty_prog. destruct id; [|discriminate]. destruct (enc_NPDU _ _) as [en|]; [|discriminate].
    destruct (enc_WriteMultiProperty _ _ _) as [[en2 x]|]; try discriminate. destruct (eerr en2); [discriminate|]. destruct (_ <? _); [discriminate|]. apply wpm_ends.
Qed.
Lemma feed_ends : forall h (p : prog answer) tr q, ends_well p -> feed p h = Some (tr, q) -> ends_well q.
Proof.
  induction h as [|x h IH]; intros p tr q H F; cbn [feed] in F.
  - injection F as <- <-. exact H.
  - destruct p as [r|d k]; [discriminate|]. destruct (feed (k x) h) as [[t q']|] eqn:E; [|discriminate].
    injection F as <- <-. exact (IH _ _ _ (H x) E).
Qed.

(** ** The steps a call still has to take *)
Definition pc_left (p : pc) : nat :=
  match p with
  | IDSpace => 5 | IDFree => 4 | IDGet _ => 3 | IDMake _ _ => 2 | IDLock _ _ => 1 | IDBack => 1
  | RecvLock _ => 3 | RecvEval _ _ _ => 2 | RecvWait _ _ _ => 1
  | PutLock _ => 6 | PutClose _ _ _ => 5 | PutPool _ _ _ => 4 | PutId _ _ _ => 3 | PutSpace _ _ _ => 2 | PutDel _ _ _ => 1
  | _ => 0
  end.
Definition left (x : phase) (p : pc) : nat :=
  match x with
  | NId _ => pc_left p + 15
  | NRun _ _ _ h _ _ => 7 + 4 * (2 - length h)
  | NRecv _ _ _ h _ _ => pc_left p + 7 + 4 * (1 - length h)
  | NPut _ _ _ _ _ _ => pc_left p
  | _ => 0
  end.

Definition progress (w w' : world) (i : nat) (rq : request) (n : nat) : Prop :=
  (exists f, w_done w' = f :: w_done w /\ fi_thread f = i /\ fi_req f = rq /\ nth_error (w_ph w') i = Some NFree) \/
  (exists x p, nth_error (w_ph w') i = Some x /\ req_of x = Some rq /\ nth_error (sy_thr (w_tsm w')) i = Some p /\
     (left x p < n)%nat /\ w_done w' = w_done w).

Lemma wtsm_inv : forall me w a w', wexec me w (WTsm a) = Some w' ->
  exists s, w_dead w = false /\ inside a = true /\ exec (w_tsm w) a = Some s /\
    (sy_log s = sy_log (w_tsm w) -> w' = with_tsm w s) /\ (forall e, sy_log s = e :: sy_log (w_tsm w) -> w' = returned me (with_tsm w s) e).
Proof.
  intros me w a w' H. unfold wexec in H. destruct (w_dead w); [discriminate|]. destruct (inside a); [|discriminate].
  destruct (exec (w_tsm w) a) as [s|]; [|discriminate]. exists s. do 3 (split; [reflexivity|]). split.
  - intros E. rewrite E, Nat.eqb_refl in H. congruence.
  - intros e E. rewrite E in H. replace (Nat.eqb _ _) with false in H; [congruence|]. symmetry. apply Nat.eqb_neq. cbn. lia.
Qed.
Lemma exec_crash' : forall s a s', exec s a = Some s' -> sy_crash s = false.
Proof. intros s a s' H. unfold exec in H. destruct (sy_crash s); [discriminate|reflexivity]. Qed.

Ltac same_pc := match goal with
  | A : nth_error (sy_thr (w_tsm ?w)) ?i = Some ?p, B : nth_error (sy_thr (w_tsm ?w)) ?i = Some ?q |- _ =>
      rewrite A in B; injection B; intros; subst; clear B end.
Lemma in_phase : forall me w i x, up me w -> nth_error (w_ph w) i = Some x ->
  exists p, nth_error (sy_thr (w_tsm w)) i = Some p /\ fits (w_in w) x p.
Proof. intros me w i x U N. destruct (up_inv _ _ U) as ((l & IA) & _). exact (thr_of _ _ _ _ _ IA N). Qed.
Lemma run_length : forall me w i rq id g h tr d k, up me w -> nth_error (w_ph w) i = Some (NRun rq id g h tr (PTry d k)) -> (length h <= 1)%nat.
Proof.
  intros me w i rq id g h tr d k U N. destruct (up_inv _ _ U) as ((l & IA) & _). destruct (a_hist _ _ _ IA _ _ N) as [F _].
  destruct (feed_depth _ _ 2 _ _ (start_depth me rq (Some id)) F) as [L D]. rewrite map_length in *.
  destruct (length h) as [|[|[|n]]]; cbn in D; try lia; destruct D.
Qed.
Lemma recv_length : forall me w i rq id g h tr k, up me w -> nth_error (w_ph w) i = Some (NRecv rq id g h tr k) -> (length h <= 1)%nat.
Proof.
  intros me w i rq id g h tr k U N. destruct (up_inv _ _ U) as ((l & IA) & _). destruct (a_hist _ _ _ IA _ _ N) as [(tr0 & d & _ & F) _].
  destruct (feed_depth _ _ 2 _ _ (start_depth me rq (Some id)) F) as [L D]. rewrite map_length in *.
  destruct (length h) as [|[|[|n]]]; cbn in D; try lia; destruct D.
Qed.
(** the transaction of a call in Receive or Put is in the table, its channel open *)
Lemma no_stray : forall me w i x, up me w -> nth_error (w_ph w) i = Some x -> x <> NStray.
Proof. intros me w i x U N ->. destruct (up_inv _ _ U) as ((l & IA) & _). exact (a_hist _ _ _ IA _ _ N). Qed.

Lemma deliver_inv : forall s i j s', exec s (ADeliver i j) = Some s' -> exists sid v c sg rid rg,
  nth_error (sy_thr s) i = Some (SendWait sid v (Some c) sg) /\ nth_error (sy_thr s) j = Some (RecvWait rid (Some c) rg) /\ i <> j /\
  s' = note (set_pc (set_pc s i PIdle) j PIdle) (EDeliver i sid sg j rid rg v).
Proof.
  intros s i j s' X. unfold exec in X. destruct (sy_crash s); [discriminate|].
  destruct (nth_error (sy_thr s) i) as [[]|] eqn:A; try discriminate X. destruct c as [c|]; [|discriminate X].
  destruct (nth_error (sy_thr s) j) as [[]|] eqn:B; try discriminate X. destruct c0 as [c0|]; [|discriminate X].
  destruct (Nat.eqb c c0) eqn:Q; [|discriminate X]. apply Nat.eqb_eq in Q. subst c0. destruct (closed s c); [discriminate X|]. injection X as <-.
  do 6 eexists. split; [reflexivity|]. split; [reflexivity|]. split; [intros ->; congruence|reflexivity].
Qed.
Lemma own_step : forall me w a w' i x p rq, up me w -> up me w' -> wexec me w a = Some w' ->
  nth_error (w_ph w) i = Some x -> req_of x = Some rq -> nth_error (sy_thr (w_tsm w)) i = Some p ->
  w_of i a = true -> progress w w' i rq (left x p).
Proof.
  intros me w a w' i x p rq U U' E N Q Np O.
  destruct (in_phase _ _ _ _ U N) as (p0 & Np0 & F). rewrite Np in Np0. injection Np0 as <-.
  assert (UT : forall q, nth_error (upd (sy_thr (w_tsm w)) i q) i = Some q) by (intros q; apply (upd_same _ _ _ _ _ Np)).
  assert (UP : forall q, nth_error (upd (w_ph w) i q) i = Some q) by (intros q; apply (upd_same _ _ _ _ _ N)).
  destruct a as [| | |j ok|j|b]; cbn [w_of] in O; try discriminate O.
  - apply Nat.eqb_eq in O. subst j. unfold wexec in E. destruct (w_dead w); [discriminate|]. rewrite N in E.
    destruct x as [| |rq' id g h tr [r|d k]| | | |]; try discriminate E. cbn in Q. injection Q as ->. cbn in F. subst p.
    pose proof (run_length _ _ _ _ _ _ _ _ _ _ U N) as L. destruct ok.
    + unfold exec in E. destruct (sy_crash _); [discriminate|]. rewrite Np in E. injection E as <-.
      right. do 2 eexists. split; [apply UP|]. split; [reflexivity|]. split; [cbn; apply UT|]. split; [cbn [left pc_left entry_of]; lia|reflexivity].
    + destruct (sy_crash _); [discriminate|]. injection E as <-. right. do 2 eexists. split; [apply UP|]. split; [reflexivity|]. split; [exact Np|].
      split; [cbn [left]; rewrite app_length; cbn [length]; lia|reflexivity].
  - apply Nat.eqb_eq in O. subst j. unfold wexec in E. destruct (w_dead w) eqn:D0; [discriminate|]. rewrite N in E.
    destruct x as [| |rq' id g h tr [r|d k]| | | |]; try discriminate E. cbn in Q. injection Q as ->. cbn in F. subst p.
    destruct r; try discriminate E;
      try (unfold exec in E; destruct (sy_crash _); [discriminate|]; rewrite Np in E; injection E as <-; right; do 2 eexists; split; [apply UP|]; split; [reflexivity|];
           split; [cbn; apply UT|]; split; [cbn [left pc_left entry_of]; lia|reflexivity]).
    destruct (sy_crash _); [discriminate|]. injection E as <-. destruct U' as (_ & K & _). discriminate K.
  - destruct (wtsm_inv _ _ _ _ E) as (s & D & IN & X & S1 & S2).
    assert (C' : sy_crash s = false).
    { destruct (sy_crash s) eqn:C'; [|reflexivity]. exfalso. destruct U' as (_ & _ & K).
      assert (sy_log s = sy_log (w_tsm w) \/ exists e, sy_log s = e :: sy_log (w_tsm w)) as [L|[e L]].
      { clear - X. unfold exec, step_of in X. 
        repeat match type of X with
         | (if ?b then _ else _) = Some _ => destruct b eqn:?; try discriminate X
         | match ?x with _ => _ end = Some _ => destruct x eqn:?; try discriminate X
         end; injection X as <-; fields; eauto. }
      - rewrite (S1 L) in K. cbn in K. congruence.
      - rewrite (S2 _ L) in K. revert K. clear - C'. destruct e; cbn [returned with_tsm w_ph];
          repeat match goal with |- context [match ?x with _ => _ end] => destruct x end; unfold handled, received; 
          repeat match goal with |- context [match ?x with _ => _ end] => destruct x end; cbn; congruence. }
    assert (SIL : forall p', sy_log s = sy_log (w_tsm w) -> nth_error (sy_thr s) i = Some p' -> (left x p' < left x p)%nat -> progress w w' i rq (left x p)).
    { intros p' L NT LT. rewrite (S1 L). right. exists x, p'. auto. }
    assert (DEL : forall k j, b = ADeliver k j -> (exists rid c rg, p = RecvWait rid c rg /\ j = i /\ k <> i) \/ exists sid v c sg, p = SendWait sid v c sg).
    { intros k j ->. destruct (deliver_inv _ _ _ _ X) as (sid & v & c & sg & rid & rg & A & B & NE & _).
      cbn in O. apply orb_true_iff in O. destruct O as [O|O]; apply Nat.eqb_eq in O; subst; rewrite Np in *; [right|left].
      - injection A as ->. eauto.
      - injection B as ->. do 3 eexists. split; [reflexivity|]. auto. }
    destruct x as [|rq'|rq' id g h tr q|rq' id g h tr k|rq' id g h tr r|v|]; cbn in Q; try discriminate Q; injection Q as ->; cbn [fits] in F.
    + (* ID *)
      assert (EV : forall p' e, sy_log s = e :: sy_log (w_tsm w) -> e = ENoId i -> nth_error (sy_thr s) i = Some p' -> progress w w' i rq (left (NId rq) p)).
      { intros p' e L -> NT. rewrite (S2 _ L). left. cbn [returned with_tsm w_ph]. rewrite N, start_none. eexists. split; [reflexivity|]. split; [reflexivity|]. split; [reflexivity|cbn; apply UP]. }
      destruct p; cbn in F; try (destruct F; fail); destruct b as [| |b0|b0|b0 b1|b0 b1|]; cbn [w_of] in O; try discriminate O; try (apply Nat.eqb_eq in O; subst b0);
        try (destruct (DEL _ _ eq_refl) as [(? & ? & ? & [=] & _)|(? & ? & ? & ? & [=])]; fail);
        unfold exec in X; destruct (sy_crash (w_tsm w)); try discriminate X;
        try (rewrite Np in X; cbn [step_of] in X; try discriminate X).
      all: try (destruct (sy_space (w_tsm w)); [discriminate|]; injection X as <-; eapply SIL; [reflexivity|cbn; apply UT|cbn [left pc_left]; lia]).
      all: try (destruct (sy_ids (w_tsm w)); [discriminate|]; injection X as <-; eapply SIL; [reflexivity|cbn; apply UT|cbn [left pc_left]; lia]).
      all: try (injection X as <-; eapply EV; [reflexivity|reflexivity|cbn; apply UT]).
      all: try (injection X as <-; eapply SIL; [reflexivity|cbn; apply UT|cbn [left pc_left]; lia]).
      all: try (destruct (Nat.ltb _ _); [|discriminate]; injection X as <-; eapply EV; [reflexivity|reflexivity|cbn; apply UT]).
      { destruct b1 as [n|].
        - destruct (nth_error (sy_pool (w_tsm w)) n); [|discriminate X]. injection X as <-. eapply SIL; [reflexivity|cbn; apply UT|cbn [left pc_left]; lia].
        - injection X as <-. eapply SIL; [reflexivity|cbn; apply UT|cbn [left pc_left]; lia]. }
      destruct (sy_lock (w_tsm w)) eqn:LK; [discriminate|]. injection X as <-. specialize (S2 _ eq_refl). subst w'. right.
      cbn [returned with_tsm w_ph]. rewrite N. do 2 eexists. split; [apply UP|]. split; [reflexivity|]. split; [cbn; apply UT|]. split; [cbn [left pc_left length]; lia|reflexivity].
    + (* running: not inside the manager *)
      subst p. exfalso. destruct b as [| |b0|b0|b0 b1|b0 b1|]; cbn [w_of] in O; try discriminate O; try (apply Nat.eqb_eq in O; subst b0);
        try (destruct (DEL _ _ eq_refl) as [(? & ? & ? & [=] & _)|(? & ? & ? & ? & [=])]; fail);
        unfold exec in X; destruct (sy_crash (w_tsm w)); try discriminate X; try (rewrite Np in X; discriminate X).
    + (* Receive *)
      pose proof X as X0.
      pose proof (recv_length _ _ _ _ _ _ _ _ _ U N) as L.
      assert (STR : forall e, (e = ERecvNil i id \/ e = ERecvErr i id) -> sy_log s = e :: sy_log (w_tsm w) -> False).
      { intros e [-> | ->] LG; pose proof (S2 _ LG) as W; cbn [returned] in W; subst w';
          apply (no_stray _ _ i NStray U'); try reflexivity; cbn; apply UP. }
      assert (RUN : forall w2 v, w_done w2 = w_done w -> nth_error (w_ph w2) i = Some (NRun rq id g (h ++ [v]) tr (k (match v with inl e => inl e | inr v => inr (load_of w2 v) end))) ->
                nth_error (sy_thr (w_tsm w2)) i = Some PIdle -> (1 <= pc_left p)%nat -> progress w w2 i rq (left (NRecv rq id g h tr k) p)).
      { intros w2 v DN NN NT LT. right. do 2 eexists. split; [exact NN|]. split; [reflexivity|]. split; [exact NT|].
        split; [cbn [left]; rewrite app_length; cbn [length]; lia|exact DN]. }
      destruct p; cbn in F; try (destruct F; fail); destruct b as [| |b0|b0|b0 b1|b0 b1|]; cbn [w_of] in O; try discriminate O; try (apply Nat.eqb_eq in O; subst b0);
        try (destruct (DEL _ _ eq_refl) as [(? & ? & ? & [=] & _)|(? & ? & ? & ? & [=])]; fail);
        unfold exec in X; destruct (sy_crash (w_tsm w)); try discriminate X;
        try (rewrite Np in X; cbn [step_of] in X; try discriminate X).
      * destruct (sy_lock (w_tsm w)); [discriminate|]. destruct (lookup _ _) as [[o g']|]; injection X as <-.
        -- eapply SIL; [reflexivity|cbn; apply UT|cbn [left pc_left]; lia].
        -- subst id0. exfalso. eapply STR; [right; reflexivity|reflexivity].
      * injection X as <-. eapply SIL; [reflexivity|cbn; apply UT|cbn [left pc_left]; lia].
      * destruct c as [c|]; [|discriminate]. destruct (closed _ _); [|discriminate]. injection X as <-. destruct F as [-> ->]. exfalso. eapply STR; [left; reflexivity|reflexivity].
      * injection X as <-. specialize (S2 _ eq_refl). subst w'. cbn [returned]. unfold received. cbn [with_tsm w_ph]. rewrite N.
        eapply (RUN _ (inl CTimeout)); [reflexivity|cbn; apply UP|cbn; apply UT|cbn; lia].
      * destruct (DEL _ _ eq_refl) as [(_ & _ & _ & _ & -> & NE)|(? & ? & ? & ? & [=])]. clear X DEL SIL STR O S1 C'.
        destruct (deliver_inv _ _ _ _ X0) as (sid & v & c' & sg & rid & rg & A & B & _ & ->). specialize (S2 _ eq_refl). subst w'.
        cbn [returned]. unfold received. cbn [with_tsm w_ph]. rewrite N.
        match goal with |- context [with_ph (with_tsm w ?s0) i ?q0] => set (w2 := with_ph (with_tsm w s0) i q0) end.
        assert (P2 : progress w w2 i rq (left (NRecv rq id g h tr k) (RecvWait id0 c g0))).
        { eapply (RUN w2 (inr (Z.to_nat v))); [reflexivity|subst w2; cbn; apply UP| |cbn; lia].
          subst w2. cbn [with_ph with_tsm w_tsm]. fields. apply (upd_same _ _ _ _ (RecvWait id0 c g0)). rewrite upd_other by auto. exact Np. }
        destruct P2 as [(f & P2 & _)|(x & p & P1 & P2 & P3 & P4 & P5)].
        { exfalso. apply (f_equal (@length _)) in P2. cbn in P2. lia. }
        destruct (nth_error (w_ph w2) b0) as [[]|] eqn:NB; try (right; exists x, p; auto; fail).
        unfold handled. assert (NI : nth_error (w_ph (with_ph w2 b0 NFree)) i = Some x) by (cbn [with_ph w_ph]; rewrite upd_other by auto; exact P1).
        right. exists x, p. destruct (nth_error (w_in (with_ph w2 b0 NFree)) v0); [destruct (snd _)|]; auto.
    + (* Put *)
      destruct p; cbn in F; try (destruct F; fail); destruct b as [| |b0|b0|b0 b1|b0 b1|]; cbn [w_of] in O; try discriminate O; try (apply Nat.eqb_eq in O; subst b0);
        try (destruct (DEL _ _ eq_refl) as [(? & ? & ? & [=] & _)|(? & ? & ? & ? & [=])]; fail);
        unfold exec in X; destruct (sy_crash (w_tsm w)); try discriminate X;
        try (rewrite Np in X; cbn [step_of] in X; try discriminate X).
      * destruct (sy_lock (w_tsm w)); [discriminate|]. destruct (lookup _ _) as [[o g']|]; injection X as <-.
        -- eapply SIL; [reflexivity|cbn; apply UT|cbn [left pc_left]; lia].
        -- specialize (S2 _ eq_refl). subst w'. left. cbn [returned with_tsm w_ph]. rewrite N. eexists. split; [reflexivity|]. split; [reflexivity|]. split; [reflexivity|cbn; apply UP].
      * destruct (data_of _ _); [|injection X as <-; discriminate C']. destruct (closed _ _); injection X as <-; [discriminate C'|].
        specialize (S2 _ eq_refl). subst w'. right. do 2 eexists. split; [exact N|]. split; [reflexivity|]. split; [cbn; apply UT|]. split; [cbn [left pc_left]; lia|reflexivity].
      * injection X as <-. eapply SIL; [reflexivity|cbn; apply UT|cbn [left pc_left]; lia].
      * destruct (Nat.ltb _ _); [|discriminate]. injection X as <-. eapply SIL; [reflexivity|cbn; apply UT|cbn [left pc_left]; lia].
      * destruct (Nat.ltb _ _); [|discriminate]. injection X as <-. eapply SIL; [reflexivity|cbn; apply UT|cbn [left pc_left]; lia].
      * injection X as <-. specialize (S2 _ eq_refl). subst w'. left. cbn [returned with_tsm w_ph]. rewrite N. eexists. split; [reflexivity|]. split; [reflexivity|]. split; [reflexivity|cbn; apply UP].
Qed.

(** ** Steps of others *)
Lemma other_step' : forall me w a w' i x, up me w -> wexec me w a = Some w' ->
  nth_error (w_ph w) i = Some x -> match a with WCall j _ | WArrive j _ _ => j <> i | _ => True end -> w_of i a = false ->
  nth_error (w_ph w') i = Some x /\ nth_error (sy_thr (w_tsm w')) i = nth_error (sy_thr (w_tsm w)) i /\
  (w_done w' = w_done w \/ exists f, w_done w' = f :: w_done w /\ fi_thread f <> i).
Proof.
  intros me w a w' i x U E N NF O.
  destruct (in_phase _ _ _ _ U N) as (p & Np & F).
  assert (KI : forall j q, j <> i -> nth_error (upd (w_ph w) j q) i = Some x) by (intros j q NE; rewrite upd_other by auto; exact N).
  assert (KT : forall j q, j <> i -> nth_error (upd (sy_thr (w_tsm w)) j q) i = nth_error (sy_thr (w_tsm w)) i) by (intros j q NE; apply upd_other; auto).
  destruct a as [|j rq'|j src b|j ok|j|b]; cbn [w_of] in O.
  - unfold wexec in E. destruct (w_dead w); [discriminate|]. unfold exec in E. destruct (sy_crash _); [discriminate|]. injection E as <-.
    cbn [w_ph w_tsm w_done]. fields. rewrite !nth_error_app1; [auto|apply nth_error_Some; congruence|apply nth_error_Some; congruence].
  - unfold wexec in E. destruct (w_dead w); [discriminate|]. destruct (nth_error (w_ph w) j) as [[]|] eqn:NJ; try discriminate E.
    unfold exec in E. destruct (sy_crash _); [discriminate|]. destruct (nth_error (sy_thr (w_tsm w)) j) as [[]|]; try discriminate E. injection E as <-. cbn. auto.
  - unfold wexec in E. destruct (w_dead w); [discriminate|]. destruct (nth_error (w_ph w) j) as [[]|] eqn:NJ; try discriminate E.
    destruct (handleMsg _ _ _) as [eff pn]. destruct (delivery eff) as [[id' pl]|].
    + unfold exec in E. destruct (sy_crash _); [discriminate|]. destruct (nth_error (sy_thr (w_tsm w)) j) as [[]|]; try discriminate E. injection E as <-. cbn. auto.
    + destruct (sy_crash _); [discriminate|]. injection E as <-. destruct pn; auto.
  - apply Nat.eqb_neq in O. unfold wexec in E. destruct (w_dead w); [discriminate|]. destruct (nth_error (w_ph w) j) as [[| |? ? ? ? ? [r|d k]| | | |]|] eqn:NJ; try discriminate E.
    destruct ok.
    + unfold exec in E. destruct (sy_crash _); [discriminate|]. destruct (nth_error (sy_thr (w_tsm w)) j) as [[]|]; try discriminate E. injection E as <-. cbn. auto.
    + destruct (sy_crash _); [discriminate|]. injection E as <-. cbn. auto.
  - apply Nat.eqb_neq in O. unfold wexec in E. destruct (w_dead w); [discriminate|]. destruct (nth_error (w_ph w) j) as [[| |? ? ? ? ? [r|d k]| | | |]|] eqn:NJ; try discriminate E.
    destruct r; try discriminate E;
      try (unfold exec in E; destruct (sy_crash _); [discriminate|]; destruct (nth_error (sy_thr (w_tsm w)) j) as [[]|]; try discriminate E; injection E as <-; cbn; auto).
  - destruct (wtsm_inv _ _ _ _ E) as (s & D & IN & X & S1 & S2).
    assert (RT : forall j e, j <> i -> (match e with EGot k _ _ _ | ENoId k | EPut k _ _ | EPutErr k _ | ESendErr k _ _ | ERecvTimeout k _ | ERecvNil k _ | ERecvErr k _ => k = j
                  | EDeliver _ _ _ _ _ _ _ => False | _ => True end) ->
              sy_thr s = sy_thr (w_tsm w) \/ (exists q, sy_thr s = upd (sy_thr (w_tsm w)) j q) -> sy_log s = e :: sy_log (w_tsm w) ->
              nth_error (w_ph w') i = Some x /\ nth_error (sy_thr (w_tsm w')) i = nth_error (sy_thr (w_tsm w)) i /\
              (w_done w' = w_done w \/ exists f, w_done w' = f :: w_done w /\ fi_thread f <> i)).
    { intros j e NE HE HT L. rewrite (S2 _ L). clear S1 S2.
      assert (T0 : nth_error (sy_thr s) i = nth_error (sy_thr (w_tsm w)) i) by (destruct HT as [-> |(q & ->)]; [reflexivity|apply KT; exact NE]).
      destruct e; cbn [returned with_tsm w_ph]; try (destruct HE; fail); try subst i0; try subst j0;
        try (cbn; rewrite T0; auto; fail); try (destruct (nth_error (w_ph w) j) as [[]|] eqn:NJ; try (cbn; rewrite T0; auto; fail)).
      all: try (destruct (start me _ None); cbn; rewrite T0, KI by exact NE; auto; split; [reflexivity|]; split; [reflexivity|]; right; eexists; split; [reflexivity|exact NE]).
      all: try (cbn; rewrite T0, KI by exact NE; split; [reflexivity|]; split; [reflexivity|]; right; eexists; split; [reflexivity|exact NE]).
      all: try (cbn; rewrite T0, KI by exact NE; auto; fail).
      all: try (unfold handled; destruct (nth_error (w_in _) _); [destruct (snd _)|]; cbn; rewrite T0, KI by exact NE; auto; fail).
      all: unfold received; cbn [with_tsm w_ph]; rewrite ?NJ; try (cbn; rewrite T0; auto; fail); cbn; rewrite T0, KI by exact NE; auto. }
    assert (SL : sy_log s = sy_log (w_tsm w) -> nth_error (sy_thr s) i = nth_error (sy_thr (w_tsm w)) i ->
              nth_error (w_ph w') i = Some x /\ nth_error (sy_thr (w_tsm w')) i = nth_error (sy_thr (w_tsm w)) i /\
              (w_done w' = w_done w \/ exists f, w_done w' = f :: w_done w /\ fi_thread f <> i)) by (intros L T; rewrite (S1 L); auto).
    destruct b as [| |j|j|j k|j k|k]; try discriminate IN.
    + apply Nat.eqb_neq in O. unfold exec, step_of in X.
      repeat match type of X with
         | (if ?b then _ else _) = Some _ => destruct b eqn:?; try discriminate X
         | match ?x with _ => _ end = Some _ => destruct x eqn:?; try discriminate X
         end; injection X as <-; first [apply SL; [reflexivity|cbn; apply KT; exact O] | eapply (RT j); [exact O| |right; eexists; reflexivity|reflexivity]; cbn; auto
           | eapply (RT j); [exact O| |left; reflexivity|reflexivity]; cbn; auto].
    + apply Nat.eqb_neq in O. unfold exec in X. destruct (sy_crash _); [discriminate|]. destruct (nth_error (sy_thr (w_tsm w)) j) as [[]|]; try discriminate X; injection X as <-;
        first [apply SL; [reflexivity|cbn; apply KT; exact O] | eapply (RT j); [exact O| |right; eexists; reflexivity|reflexivity]; cbn; auto].
    + apply Nat.eqb_neq in O. unfold exec in X. destruct (sy_crash _); [discriminate|]. destruct (nth_error (sy_thr (w_tsm w)) j) as [[]|]; try discriminate X.
      destruct k as [n|]; [destruct (nth_error (sy_pool (w_tsm w)) n); [|discriminate]|]; injection X as <-; apply SL; [reflexivity|cbn; apply KT; exact O|reflexivity|cbn; apply KT; exact O].
    + apply orb_false_iff in O. destruct O as [O1 O2]. apply Nat.eqb_neq in O1, O2. clear RT SL S1.
      destruct (deliver_inv _ _ _ _ X) as (sid & v & c' & sg & rid & rg & A & B & _ & ->). specialize (S2 _ eq_refl). subst w'. clear X.
      assert (T0 : nth_error (upd (upd (sy_thr (w_tsm w)) j PIdle) k PIdle) i = nth_error (sy_thr (w_tsm w)) i) by (rewrite upd_other by auto; apply KT; exact O1).
      cbn [returned]. unfold received. cbn [with_tsm w_ph].
      destruct (nth_error (w_ph w) k) as [[]|] eqn:NK;
        match goal with |- context [nth_error (w_ph ?w0) j] => assert (W0 : nth_error (w_ph w0) i = Some x /\ w_tsm w0 = note (set_pc (set_pc (w_tsm w) j PIdle) k PIdle) (EDeliver j sid sg k rid rg v) /\ w_done w0 = w_done w)
          by (split; [cbn; first [exact N|apply KI; exact O2]|split; reflexivity]); destruct W0 as (W1 & W2 & W3); revert W1 W2 W3; generalize w0 end;
        intros w0 W1 W2 W3;
        (destruct (nth_error (w_ph w0) j) as [[]|] eqn:NJ; try (rewrite W2; auto; fail));
        unfold handled; (destruct (nth_error (w_in (with_ph w0 j NFree)) _); [destruct (snd _)|]); cbn [with_ph kill w_ph w_tsm w_done]; rewrite upd_other by auto; rewrite W2; auto.
    + unfold exec in X. destruct (sy_crash _); [discriminate|]. injection X as <-. apply SL; reflexivity.
Qed.

Lemma other_step : forall me w a w' i x rq, up me w -> wexec me w a = Some w' ->
  nth_error (w_ph w) i = Some x -> req_of x = Some rq -> w_of i a = false ->
  nth_error (w_ph w') i = Some x /\ nth_error (sy_thr (w_tsm w')) i = nth_error (sy_thr (w_tsm w)) i /\
  (w_done w' = w_done w \/ exists f, w_done w' = f :: w_done w /\ fi_thread f <> i).
Proof.
  intros me w a w' i x rq U E N Q O. apply (other_step' me w a w' i x U E N); [|exact O].
  unfold wexec in E. destruct (w_dead w); [discriminate|].
  destruct a as [|j rq'|j src b|j ok|j|b]; auto; intros ->; rewrite N in E; destruct x; try discriminate E; discriminate Q.
Qed.
(** a goroutine that is in nothing takes no step *)
Lemma free_step : forall me w a w' i, up me w -> wexec me w a = Some w' -> w_step a = true ->
  nth_error (w_ph w) i = Some NFree -> w_of i a = false /\ nth_error (w_ph w') i = Some NFree.
Proof.
  intros me w a w' i U E S N. assert (O : w_of i a = false).
  { destruct (w_of i a) eqn:O; [|reflexivity]. exfalso. destruct (in_phase _ _ _ _ U N) as (p & Np & F). cbn in F. subst p.
    destruct a as [| | |j ok|j|b]; try discriminate S; cbn [w_of] in O.
    - apply Nat.eqb_eq in O. subst j. unfold wexec in E. destruct (w_dead w); [discriminate|]. rewrite N in E. discriminate.
    - apply Nat.eqb_eq in O. subst j. unfold wexec in E. destruct (w_dead w); [discriminate|]. rewrite N in E. discriminate.
    - destruct (wtsm_inv _ _ _ _ E) as (s & _ & _ & X & _).
      destruct b as [| |b0|b0|b0 b1|b0 b1|]; try discriminate O; try (apply Nat.eqb_eq in O; subst b0; unfold exec in X; destruct (sy_crash _); [discriminate|]; rewrite Np in X; discriminate X).
      destruct (deliver_inv _ _ _ _ X) as (sid & v & c & sg & rid & rg & A & B & _). apply orb_true_iff in O. destruct O as [O|O]; apply Nat.eqb_eq in O; subst; congruence. }
  split; [exact O|]. apply (other_step' me w a w' i NFree U E N); [destruct a; try discriminate S; exact I|exact O].
Qed.

(** ** A call can go on unless it waits for the mutex *)
Lemma enabled : forall me w i x rq, up me w -> nth_error (w_ph w) i = Some x -> req_of x = Some rq -> looping x = false ->
  sy_lock (w_tsm w) = None \/ sy_lock (w_tsm w) = Some i ->
  exists a w', w_of i a = true /\ w_step a = true /\ wexec me w a = Some w'.
Proof.
  intros me w i x rq U N Q NL LK. destruct (in_phase _ _ _ _ U N) as (p & Np & F).
  destruct (up_inv _ _ U) as ((l & IA) & IB & I1 & I2 & I3 & RE). pose proof U as (_ & D & C).
  assert (TS : forall b s, exec (w_tsm w) b = Some s -> inside b = true -> w_of i (WTsm b) = true -> exists a w', w_of i a = true /\ w_step a = true /\ wexec me w a = Some w').
  { intros b s X IN O. exists (WTsm b). unfold wexec. rewrite D, IN, X. destruct (Nat.eqb _ _); [eexists; split; [exact O|split; reflexivity]|].
    destruct (sy_log s); eexists; (split; [exact O|split; reflexivity]). }
  assert (LN : locked p = false -> sy_lock (w_tsm w) = None).
  { intros LP. destruct LK as [LK|LK]; [exact LK|]. apply (i_lock _ I1 i p Np) in LK. congruence. }
  assert (OI : Nat.eqb i i = true) by apply Nat.eqb_refl.
  destruct x as [|rq'|rq' id g h tr [r|d k]|rq' id g h tr k|rq' id g h tr r|v|]; try discriminate Q; cbn [fits] in F.
  - destruct p; try (destruct F; fail).
    + eapply (TS (ATimeout i)); [unfold exec; rewrite C, Np; reflexivity|reflexivity|exact OI].
    + eapply (TS (ATimeout i)); [unfold exec; rewrite C, Np; reflexivity|reflexivity|exact OI].
    + destruct (back_enabled _ _ i RE C Np) as (s & E1 & _). eapply (TS (AStep i)); [exact E1|reflexivity|exact OI].
    + eapply (TS (AGet i None)); [unfold exec; rewrite C, Np; reflexivity|reflexivity|exact OI].
    + eapply (TS (AStep i)); [unfold exec; rewrite C, Np; reflexivity|reflexivity|exact OI].
    + eapply (TS (AStep i)); [unfold exec; rewrite C, Np; cbn [step_of]; rewrite (LN eq_refl); reflexivity|reflexivity|exact OI].
  - subst p. exists (WRet i). unfold wexec. rewrite D, N. cbn [w_of w_step]. unfold exec. rewrite C, Np.
    destruct r; try discriminate NL; eexists; (split; [exact OI|split; reflexivity]).
  - subst p. exists (WTx i true). unfold wexec. rewrite D, N. cbn [w_of w_step]. unfold exec. rewrite C, Np. eexists; (split; [exact OI|split; reflexivity]).
  - destruct p; try (destruct F; fail).
    + destruct (lookup id0 (sy_table (w_tsm w))) as [[o g']|] eqn:LO; (eapply (TS (AStep i)); [unfold exec; rewrite C, Np; cbn [step_of]; rewrite (LN eq_refl), LO; reflexivity|reflexivity|exact OI]).
    + eapply (TS (AStep i)); [unfold exec; rewrite C, Np; reflexivity|reflexivity|exact OI].
    + eapply (TS (ATimeout i)); [unfold exec; rewrite C, Np; reflexivity|reflexivity|exact OI].
  - destruct (putting p) as [[id' [o g']]|] eqn:P.
    + destruct (put_step _ i p id' o g' I1 I2 C Np P) as (s1 & E & _). eapply (TS (AStep i)); [exact E|reflexivity|exact OI].
    + destruct p; try discriminate P; try (destruct F; fail).
      destruct (lookup id0 (sy_table (w_tsm w))) as [[o g']|] eqn:LO; (eapply (TS (AStep i)); [unfold exec; rewrite C, Np; cbn [step_of]; rewrite (LN eq_refl), LO; reflexivity|reflexivity|exact OI]).
Qed.
(** the holder of the mutex keeps it or frees it *)
Lemma holder_step : forall me w a w' j, up me w -> up me w' -> wexec me w a = Some w' -> sy_lock (w_tsm w) = Some j ->
  sy_lock (w_tsm w') = Some j \/ sy_lock (w_tsm w') = None.
Proof.
  intros me w a w' j U U' E L.
  assert (XX : forall b s, exec (w_tsm w) b = Some s -> sy_lock s = Some j \/ sy_lock s = None).
  { intros b s X. unfold exec, step_of in X.
      repeat match type of X with
         | (if ?b then _ else _) = Some _ => destruct b eqn:?; try discriminate X
         | match ?x with _ => _ end = Some _ => destruct x eqn:?; try discriminate X
         end; injection X as <-; fields; auto; congruence. }
  unfold wexec in E. destruct (w_dead w); [discriminate|]. destruct a as [|k rq'|k src b|k ok|k|b].
  - destruct (exec _ _) as [s|] eqn:X; [|discriminate]. injection E as <-. exact (XX _ _ X).
  - destruct (nth_error (w_ph w) k) as [[]|]; try discriminate. destruct (exec _ _) as [s|] eqn:X; [|discriminate]. injection E as <-. exact (XX _ _ X).
  - destruct (nth_error (w_ph w) k) as [[]|]; try discriminate. destruct (handleMsg _ _ _) as [eff pn]. destruct (delivery eff) as [[id' pl]|].
    + destruct (exec _ _) as [s|] eqn:X; [|discriminate]. injection E as <-. exact (XX _ _ X).
    + destruct (sy_crash _); [discriminate|]. injection E as <-. destruct pn; auto.
  - destruct (nth_error (w_ph w) k) as [[| |? ? ? ? ? [r|d kk]| | | |]|]; try discriminate. destruct ok.
    + destruct (exec _ _) as [s|] eqn:X; [|discriminate]. injection E as <-. exact (XX _ _ X).
    + destruct (sy_crash _); [discriminate|]. injection E as <-. auto.
  - destruct (nth_error (w_ph w) k) as [[| |? ? ? ? ? [r|d kk]| | | |]|]; try discriminate. destruct r; try discriminate;
      try (destruct (exec _ _) as [s|] eqn:X; [|discriminate]; injection E as <-; exact (XX _ _ X)).
    destruct (sy_crash _); [discriminate|]. injection E as <-. auto.
  - destruct (inside b); [|discriminate]. destruct (exec _ _) as [s|] eqn:X; [|discriminate]. specialize (XX _ _ X).
    assert (RT : forall e, w_tsm (returned me (with_tsm w s) e) = s).
    { intros e. destruct e; cbn [returned with_tsm w_ph];
          repeat match goal with |- context [match ?x with _ => _ end] => destruct x end; unfold handled, received; 
          repeat match goal with |- context [match ?x with _ => _ end] => destruct x end; reflexivity. }
    destruct (Nat.eqb _ _); [injection E as <-; exact XX|]. destruct (sy_log s); injection E as <-; [exact XX|]. rewrite RT. exact XX.
Qed.

Lemma only_lists_loop : forall me w i x rq, up me w -> nth_error (w_ph w) i = Some x -> req_of x = Some rq -> lists rq = false -> looping x = false.
Proof.
  intros me w i x rq U N Q L. destruct x as [| |rq' id g h tr [[]|]| | | |]; try reflexivity. injection Q as ->.
  destruct (up_inv _ _ U) as ((l & IA) & _). destruct (a_hist _ _ _ IA _ _ N) as [F _].
  destruct (feed_ends _ _ _ _ (start_ends me rq (Some id) L) F). reflexivity.
Qed.
Lemma left_pos : forall me w i x p rq, up me w -> nth_error (w_ph w) i = Some x -> req_of x = Some rq -> nth_error (sy_thr (w_tsm w)) i = Some p -> (0 < left x p)%nat.
Proof.
  intros me w i x p rq U N Q Np. destruct (in_phase _ _ _ _ U N) as (p0 & Np0 & F). rewrite Np in Np0. injection Np0 as <-.
  destruct x; try discriminate Q; cbn [left]; try lia. destruct p; cbn in F; try (destruct F; fail); cbn; lia.
Qed.
