(** * Requests and the clock *)
Require Import List ZArith Bool Lia.
From Verif Require Import ModelClient ModelSystem ModelScan ModelWhole ModelTime SpecSystem SpecFair SpecTime.
From Verif Require ModelTsm SpecTsm ProofsTsm ProofsTsmProps ModelUtsm ProofsServiceProps.
From Verif Require Import ProofsSystem ProofsSystemProps ProofsSystemLive ProofsScan ProofsWhole ProofsFair ProofsFairWhole.
Import ListNotations.
Import ModelTsm SpecTsm ProofsTsm ProofsTsmProps.
Open Scope Z_scope.

(** ** What one step of a call does *)
Definition in_put (p : pc) : bool :=
  match p with PutLock _ | PutClose _ _ _ | PutPool _ _ _ | PutId _ _ _ | PutSpace _ _ _ | PutDel _ _ _ => true | _ => false end.
Inductive pc_hop (i : nat) : pc -> action -> pc -> Prop :=
| h_space : pc_hop i IDSpace (AStep i) IDFree
| h_free id : pc_hop i IDFree (AStep i) (IDGet id)
| h_back : pc_hop i IDFree (ATimeout i) IDBack
| h_get id k o : pc_hop i (IDGet id) (AGet i k) (IDMake id o)
| h_make id o : pc_hop i (IDMake id o) (AStep i) (IDLock id o)
| h_look id o g : pc_hop i (RecvLock id) (AStep i) (RecvEval id o g)
| h_eval id o g c : pc_hop i (RecvEval id o g) (AStep i) (RecvWait id c g)
| h_put p p' : in_put p = true -> in_put p' = true -> pc_hop i p (AStep i) p'.
Inductive hop (i : nat) : phase -> pc -> waction -> phase -> pc -> Prop :=
| hop_in x p b p' : pc_hop i p b p' -> hop i x p (WTsm b) x p'
| hop_got rq id o g pr : hop i (NId rq) (IDLock id o) (WTsm (AStep i)) (NRun rq id g [] [] pr) PIdle
| hop_tx rq id g h tr d k : hop i (NRun rq id g h tr (PTry d k)) PIdle (WTx i true) (NRecv rq id g h (tr ++ [d]) k) (RecvLock id)
| hop_fail rq id g h tr d k : hop i (NRun rq id g h tr (PTry d k)) PIdle (WTx i false) (NRun rq id g (h ++ [inl CSend]) (tr ++ [d]) (k (inl CSend))) PIdle
| hop_out rq id g h tr k id0 c g0 : hop i (NRecv rq id g h tr k) (RecvWait id0 c g0) (WTsm (ATimeout i)) (NRun rq id g (h ++ [inl CTimeout]) tr (k (inl CTimeout))) PIdle
| hop_ans rq id g h tr k id0 c g0 j v pr : hop i (NRecv rq id g h tr k) (RecvWait id0 c g0) (WTsm (ADeliver j i)) (NRun rq id g (h ++ [inr v]) tr pr) PIdle
| hop_ret rq id g h tr r : hop i (NRun rq id g h tr (PRet r)) PIdle (WRet i) (NPut rq id g h tr r) (PutLock id).
Inductive ends (i : nat) : phase -> pc -> waction -> finished -> Prop :=
| e_space rq r : ends i (NId rq) IDSpace (WTsm (ATimeout i)) (mkFin i rq None [] [] r)
| e_back rq r : ends i (NId rq) IDBack (WTsm (AStep i)) (mkFin i rq None [] [] r)
| e_put rq id g h tr r p : ends i (NPut rq id g h tr r) p (WTsm (AStep i)) (mkFin i rq (Some id) h tr r).

Definition moves (w w' : world) (i : nat) (x : phase) (p : pc) (a : waction) : Prop :=
  (exists f, w_done w' = f :: w_done w /\ ends i x p a f /\ nth_error (w_ph w') i = Some NFree) \/
  (exists x' p', nth_error (w_ph w') i = Some x' /\ nth_error (sy_thr (w_tsm w')) i = Some p' /\
     hop i x p a x' p' /\ w_done w' = w_done w).

Lemma own_moves : forall me w a w' i x p rq, up me w -> up me w' -> wexec me w a = Some w' ->
  nth_error (w_ph w) i = Some x -> req_of x = Some rq -> nth_error (sy_thr (w_tsm w)) i = Some p ->
  w_of i a = true -> moves w w' i x p a.
Proof.
  intros me w a w' i x p rq U U' E N Q Np O.
  destruct (in_phase _ _ _ _ U N) as (p0 & Np0 & F). rewrite Np in Np0. injection Np0 as <-.
  assert (UT : forall q, nth_error (upd (sy_thr (w_tsm w)) i q) i = Some q) by (intros q; apply (upd_same _ _ _ _ _ Np)).
  assert (UP : forall q, nth_error (upd (w_ph w) i q) i = Some q) by (intros q; apply (upd_same _ _ _ _ _ N)).
  destruct a as [| | |j ok|j|b]; cbn [w_of] in O; try discriminate O.
  - apply Nat.eqb_eq in O. subst j. unfold wexec in E. destruct (w_dead w); [discriminate|]. rewrite N in E.
    destruct x as [| |rq' id g h tr [r|d k]| | | |]; try discriminate E. cbn in Q. injection Q as ->. cbn in F. subst p.
    destruct ok.
    + unfold exec in E. destruct (sy_crash _); [discriminate|]. rewrite Np in E. injection E as <-.
      right. do 2 eexists. split; [apply UP|]. split; [cbn; apply UT|]. split; [constructor|reflexivity].
    + destruct (sy_crash _); [discriminate|]. injection E as <-. right. do 2 eexists. split; [apply UP|]. split; [exact Np|].
      split; [constructor|reflexivity].
  - apply Nat.eqb_eq in O. subst j. unfold wexec in E. destruct (w_dead w) eqn:D0; [discriminate|]. rewrite N in E.
    destruct x as [| |rq' id g h tr [r|d k]| | | |]; try discriminate E. cbn in Q. injection Q as ->. cbn in F. subst p.
    destruct r; try discriminate E;
      try (unfold exec in E; destruct (sy_crash _); [discriminate|]; rewrite Np in E; injection E as <-; right; do 2 eexists; split; [apply UP|];
           split; [cbn; apply UT|]; split; [constructor|reflexivity]).
    destruct (sy_crash _); [discriminate|]. injection E as <-. destruct U' as (_ & K & _). discriminate K.
  - destruct (wtsm_inv _ _ _ _ E) as (s & D & IN & X & S1 & S2).
    assert (C' : sy_crash s = false).
    { destruct (sy_crash s) eqn:C'; [|reflexivity]. exfalso. destruct U' as (_ & _ & K).
      assert (sy_log s = sy_log (w_tsm w) \/ exists e, sy_log s = e :: sy_log (w_tsm w)) as [L|[e L]].
      { clear - X. unfold exec, step_of in X. 
        repeat match type of X with
         | (if ?b then _ else _) = Some _ => destruct b eqn:?; try discriminate X
         | match ?x with _ => _ end = Some _ => destruct x eqn:?; try discriminate X
         end; injection X as <-; fields; eauto. }
      - rewrite (S1 L) in K. cbn in K. congruence.
      - rewrite (S2 _ L) in K. revert K. clear - C'. destruct e; cbn [ModelSystem.returned with_tsm w_ph];
          repeat match goal with |- context [match ?x with _ => _ end] => destruct x end; unfold ModelSystem.handled, ModelSystem.received; 
          repeat match goal with |- context [match ?x with _ => _ end] => destruct x end; cbn; congruence. }
    assert (SIL : forall p', sy_log s = sy_log (w_tsm w) -> nth_error (sy_thr s) i = Some p' -> pc_hop i p b p' -> moves w w' i x p (WTsm b)).
    { intros p' L NT LT. rewrite (S1 L). right. exists x, p'. split; [exact N|]. split; [exact NT|]. split; [constructor; exact LT|reflexivity]. }
    assert (DEL : forall k j, b = ADeliver k j -> (exists rid c rg, p = RecvWait rid c rg /\ j = i /\ k <> i) \/ exists sid v c sg, p = SendWait sid v c sg).
    { intros k j ->. destruct (deliver_inv _ _ _ _ X) as (sid & v & c & sg & rid & rg & A & B & NE & _).
      cbn in O. apply orb_true_iff in O. destruct O as [O|O]; apply Nat.eqb_eq in O; subst; rewrite Np in *; [right|left].
      - injection A as ->. eauto.
      - injection B as ->. do 3 eexists. split; [reflexivity|]. auto. }
    destruct x as [|rq'|rq' id g h tr q|rq' id g h tr k|rq' id g h tr r|v|]; cbn in Q; try discriminate Q; injection Q as ->; cbn [fits] in F.
    + (* ID *)
      assert (EV : forall p' e, sy_log s = e :: sy_log (w_tsm w) -> e = ENoId i -> nth_error (sy_thr s) i = Some p' -> 
                 (forall r, ends i (NId rq) p (WTsm b) (mkFin i rq None [] [] r)) -> moves w w' i (NId rq) p (WTsm b)).
      { intros p' e L -> NT EN. rewrite (S2 _ L). left. cbn [ModelSystem.returned with_tsm w_ph]. rewrite N, start_none. eexists. split; [reflexivity|]. split; [apply EN|cbn; apply UP]. }
      destruct p; cbn in F; try (destruct F; fail); destruct b as [| |b0|b0|b0 b1|b0 b1|]; cbn [w_of] in O; try discriminate O; try (apply Nat.eqb_eq in O; subst b0);
        try (destruct (DEL _ _ eq_refl) as [(? & ? & ? & [=] & _)|(? & ? & ? & ? & [=])]; fail);
        unfold exec in X; destruct (sy_crash (w_tsm w)); try discriminate X;
        try (rewrite Np in X; cbn [step_of] in X; try discriminate X).
      all: try (destruct (sy_space (w_tsm w)); [discriminate|]; injection X as <-; eapply SIL; [reflexivity|cbn; apply UT|constructor]).
      all: try (destruct (sy_ids (w_tsm w)); [discriminate|]; injection X as <-; eapply SIL; [reflexivity|cbn; apply UT|constructor]).
      all: try (injection X as <-; eapply EV; [reflexivity|reflexivity|cbn; apply UT|constructor]).
      all: try (injection X as <-; eapply SIL; [reflexivity|cbn; apply UT|constructor]).
      all: try (destruct (Nat.ltb _ _); [|discriminate]; injection X as <-; eapply EV; [reflexivity|reflexivity|cbn; apply UT|constructor]).
      { destruct b1 as [n|].
        - destruct (nth_error (sy_pool (w_tsm w)) n); [|discriminate X]. injection X as <-. eapply SIL; [reflexivity|cbn; apply UT|constructor].
        - injection X as <-. eapply SIL; [reflexivity|cbn; apply UT|constructor]. }
      destruct (sy_lock (w_tsm w)) eqn:LK; [discriminate|]. injection X as <-. specialize (S2 _ eq_refl). subst w'. right.
      cbn [ModelSystem.returned with_tsm w_ph]. rewrite N. do 2 eexists. split; [apply UP|]. split; [cbn; apply UT|]. split; [constructor|reflexivity].
    + (* running: not inside the manager *)
      subst p. exfalso. destruct b as [| |b0|b0|b0 b1|b0 b1|]; cbn [w_of] in O; try discriminate O; try (apply Nat.eqb_eq in O; subst b0);
        try (destruct (DEL _ _ eq_refl) as [(? & ? & ? & [=] & _)|(? & ? & ? & ? & [=])]; fail);
        unfold exec in X; destruct (sy_crash (w_tsm w)); try discriminate X; try (rewrite Np in X; discriminate X).
    + (* Receive *)
      pose proof X as X0.
      assert (STR : forall e, (e = ERecvNil i id \/ e = ERecvErr i id) -> sy_log s = e :: sy_log (w_tsm w) -> False).
      { intros e [-> | ->] LG; pose proof (S2 _ LG) as W; cbn [ModelSystem.returned] in W; subst w';
          apply (no_stray _ _ i NStray U'); try reflexivity; cbn; apply UP. }
      destruct p; cbn in F; try (destruct F; fail); destruct b as [| |b0|b0|b0 b1|b0 b1|]; cbn [w_of] in O; try discriminate O; try (apply Nat.eqb_eq in O; subst b0);
        try (destruct (DEL _ _ eq_refl) as [(? & ? & ? & [=] & _)|(? & ? & ? & ? & [=])]; fail);
        unfold exec in X; destruct (sy_crash (w_tsm w)); try discriminate X;
        try (rewrite Np in X; cbn [step_of] in X; try discriminate X).
      * destruct (sy_lock (w_tsm w)); [discriminate|]. destruct (lookup _ _) as [[o g']|]; injection X as <-.
        -- eapply SIL; [reflexivity|cbn; apply UT|constructor].
        -- subst id0. exfalso. eapply STR; [right; reflexivity|reflexivity].
      * injection X as <-. eapply SIL; [reflexivity|cbn; apply UT|constructor].
      * destruct c as [c|]; [|discriminate]. destruct (closed _ _); [|discriminate]. injection X as <-. destruct F as [-> ->]. exfalso. eapply STR; [left; reflexivity|reflexivity].
      * injection X as <-. specialize (S2 _ eq_refl). subst w'. cbn [ModelSystem.returned]. unfold ModelSystem.received. cbn [with_tsm w_ph]. rewrite N.
        right. do 2 eexists. split; [cbn; apply UP|]. split; [cbn; apply UT|]. split; [constructor|reflexivity].
      * destruct (DEL _ _ eq_refl) as [(_ & _ & _ & _ & -> & NE)|(? & ? & ? & ? & [=])]. clear X DEL SIL STR O S1 C'.
        destruct (deliver_inv _ _ _ _ X0) as (sid & v & c' & sg & rid & rg & A & B & _ & ->). specialize (S2 _ eq_refl). subst w'.
        cbn [ModelSystem.returned]. unfold ModelSystem.received. cbn [with_tsm w_ph]. rewrite N.
        match goal with |- context [with_ph (with_tsm w ?s0) i ?q0] => set (w2 := with_ph (with_tsm w s0) i q0) end.
        assert (P2 : exists x p, nth_error (w_ph w2) i = Some x /\ nth_error (sy_thr (w_tsm w2)) i = Some p /\ hop i (NRecv rq id g h tr k) (RecvWait id0 c g0) (WTsm (ADeliver b0 i)) x p /\ w_done w2 = w_done w).
        { do 2 eexists. split; [subst w2; cbn; apply UP|]. split; [|split; [apply hop_ans|reflexivity]].
          subst w2. cbn [with_ph with_tsm w_tsm]. fields. apply (upd_same _ _ _ _ (RecvWait id0 c g0)). rewrite upd_other by auto. exact Np. }
        destruct P2 as (x & p & P1 & P3 & P4 & P5).
        destruct (nth_error (w_ph w2) b0) as [[]|] eqn:NB; try (right; exists x, p; auto; fail).
        unfold ModelSystem.handled. assert (NI : nth_error (w_ph (with_ph w2 b0 NFree)) i = Some x) by (cbn [with_ph w_ph]; rewrite upd_other by auto; exact P1).
        right. exists x, p. destruct (nth_error (w_in (with_ph w2 b0 NFree)) v0); [destruct (snd _)|]; auto.
    + (* Put *)
      destruct p; cbn in F; try (destruct F; fail); destruct b as [| |b0|b0|b0 b1|b0 b1|]; cbn [w_of] in O; try discriminate O; try (apply Nat.eqb_eq in O; subst b0);
        try (destruct (DEL _ _ eq_refl) as [(? & ? & ? & [=] & _)|(? & ? & ? & ? & [=])]; fail);
        unfold exec in X; destruct (sy_crash (w_tsm w)); try discriminate X;
        try (rewrite Np in X; cbn [step_of] in X; try discriminate X).
      * destruct (sy_lock (w_tsm w)); [discriminate|]. destruct (lookup _ _) as [[o g']|]; injection X as <-.
        -- eapply SIL; [reflexivity|cbn; apply UT|constructor; reflexivity].
        -- specialize (S2 _ eq_refl). subst w'. left. cbn [ModelSystem.returned with_tsm w_ph]. rewrite N. eexists. split; [reflexivity|]. split; [constructor|cbn; apply UP].
      * destruct (data_of _ _); [|injection X as <-; discriminate C']. destruct (closed _ _); injection X as <-; [discriminate C'|].
        specialize (S2 _ eq_refl). subst w'. right. do 2 eexists. split; [exact N|]. split; [cbn; apply UT|]. split; [constructor; constructor; reflexivity|reflexivity].
      * injection X as <-. eapply SIL; [reflexivity|cbn; apply UT|constructor; reflexivity].
      * destruct (Nat.ltb _ _); [|discriminate]. injection X as <-. eapply SIL; [reflexivity|cbn; apply UT|constructor; reflexivity].
      * destruct (Nat.ltb _ _); [|discriminate]. injection X as <-. eapply SIL; [reflexivity|cbn; apply UT|constructor; reflexivity].
      * injection X as <-. specialize (S2 _ eq_refl). subst w'. left. cbn [ModelSystem.returned with_tsm w_ph]. rewrite N. eexists. split; [reflexivity|]. split; [constructor|cbn; apply UP].
Qed.

Lemma own_is_w : forall bcast me z act z' i x rq, zreach bcast me z -> zexec bcast me z act = Some z' ->
  nth_error (w_ph (z_w z)) i = Some x -> req_of x = Some rq -> z_of i act = true ->
  exists b, act = ZW b /\ wexec me (z_w z) b = Some (z_w z') /\ w_of i b = true.
Proof.
  intros bcast me z act z' i x rq RE E N Q O. pose proof (zexec_live _ _ _ _ _ E) as LV.
  pose proof (zreach_apart _ _ _ RE i x N (in_call _ _ Q)) as Y. destruct (zreach_y _ _ _ RE) as (seen & YI).
  unfold zexec in E. rewrite LV in E. unfold z_do_w, z_do_y in E.
  destruct act as [|j rq'|j q|j src b|j|a|a]; try discriminate O; cbn [z_of] in O.
  - apply Nat.eqb_eq in O. subst j. destruct (nth_error (y_ph (z_y z)) i) as [[]|]; try discriminate E. destruct (nth_error (z_rest z) i) as [[[src b]|]|]; try discriminate E.
    exfalso. unfold wexec in E. destruct (w_dead _); [discriminate|]. rewrite N in E. destruct x; try discriminate E; discriminate Q.
  - destruct (w_step a) eqn:S; [|discriminate]. destruct (wexec me (z_w z) a) as [w|] eqn:EW; [|discriminate]. injection E as <-. exists a. auto.
  - destruct (y_step a) eqn:S; [|discriminate]. destruct (yexec bcast me (z_y z) a) as [y|] eqn:EY; [|discriminate].
    rewrite (y_free_step _ _ _ _ _ _ _ YI EY S Y) in O. discriminate O.
Qed.

(** ** A call that cannot go on waits for a context *)
Definition waits (p : pc) : bool := match p with IDSpace | IDFree | RecvWait _ _ _ => true | _ => false end.
Definition fires (a : waction) : bool := match a with WTsm (ATimeout _) => true | _ => false end.
Lemma enabled_kind : forall me w i x p rq, up me w -> nth_error (w_ph w) i = Some x -> req_of x = Some rq -> looping x = false ->
  nth_error (sy_thr (w_tsm w)) i = Some p ->
  sy_lock (w_tsm w) = None \/ sy_lock (w_tsm w) = Some i ->
  (exists a w', w_of i a = true /\ w_step a = true /\ wexec me w a = Some w' /\ fires a = false) \/
  (waits p = true /\ exists w', wexec me w (WTsm (ATimeout i)) = Some w').
Proof.
  intros me w i x p rq U N Q NL Np LK. destruct (in_phase _ _ _ _ U N) as (p0 & Np0 & F). rewrite Np in Np0. injection Np0 as <-.
  destruct (up_inv _ _ U) as ((l & IA) & IB & I1 & I2 & I3 & RE). pose proof U as (_ & D & C).
  assert (TS : forall b s, exec (w_tsm w) b = Some s -> inside b = true -> exists w', wexec me w (WTsm b) = Some w').
  { intros b s X IN. unfold wexec. rewrite D, IN, X. destruct (Nat.eqb _ _); [eauto|]. destruct (sy_log s); eauto. }
  assert (TA : forall b s, exec (w_tsm w) b = Some s -> inside b = true -> w_of i (WTsm b) = true -> fires (WTsm b) = false ->
    (exists a w', w_of i a = true /\ w_step a = true /\ wexec me w a = Some w' /\ fires a = false) \/
    (waits p = true /\ exists w', wexec me w (WTsm (ATimeout i)) = Some w')).
  { intros b s X IN O FI. left. destruct (TS b s X IN) as (w' & W). exists (WTsm b), w'. auto. }
  assert (LN : locked p = false -> sy_lock (w_tsm w) = None).
  { intros LP. destruct LK as [LK|LK]; [exact LK|]. apply (i_lock _ I1 i p Np) in LK. congruence. }
  assert (OI : Nat.eqb i i = true) by apply Nat.eqb_refl.
  destruct x as [|rq'|rq' id g h tr [r|d k]|rq' id g h tr k|rq' id g h tr r|v|]; try discriminate Q; cbn [fits] in F.
  - destruct p; try (destruct F; fail).
    + right. split; [reflexivity|]. eapply TS; [unfold exec; rewrite C, Np; reflexivity|reflexivity].
    + right. split; [reflexivity|]. eapply TS; [unfold exec; rewrite C, Np; reflexivity|reflexivity].
    + destruct (back_enabled _ _ i RE C Np) as (s & E1 & _). eapply (TA (AStep i)); [exact E1|reflexivity|exact OI|reflexivity].
    + eapply (TA (AGet i None)); [unfold exec; rewrite C, Np; reflexivity|reflexivity|exact OI|reflexivity].
    + eapply (TA (AStep i)); [unfold exec; rewrite C, Np; reflexivity|reflexivity|exact OI|reflexivity].
    + eapply (TA (AStep i)); [unfold exec; rewrite C, Np; cbn [step_of]; rewrite (LN eq_refl); reflexivity|reflexivity|exact OI|reflexivity].
  - subst p. left. exists (WRet i). unfold wexec. rewrite D, N. cbn [w_of w_step]. unfold exec. rewrite C, Np.
    destruct r; try discriminate NL; eexists; (split; [exact OI|split; [reflexivity|split; reflexivity]]).
  - subst p. left. exists (WTx i true). unfold wexec. rewrite D, N. cbn [w_of w_step]. unfold exec. rewrite C, Np. eexists; (split; [exact OI|split; [reflexivity|split; reflexivity]]).
  - destruct p; try (destruct F; fail).
    + destruct (lookup id0 (sy_table (w_tsm w))) as [[o g']|] eqn:LO; (eapply (TA (AStep i)); [unfold exec; rewrite C, Np; cbn [step_of]; rewrite (LN eq_refl), LO; reflexivity|reflexivity|exact OI|reflexivity]).
    + eapply (TA (AStep i)); [unfold exec; rewrite C, Np; reflexivity|reflexivity|exact OI|reflexivity].
    + right. split; [reflexivity|]. eapply TS; [unfold exec; rewrite C, Np; reflexivity|reflexivity].
  - destruct (putting p) as [[id' [o g']]|] eqn:P.
    + destruct (put_step _ i p id' o g' I1 I2 C Np P) as (s1 & E & _). eapply (TA (AStep i)); [exact E|reflexivity|exact OI|reflexivity].
    + destruct p; try discriminate P; try (destruct F; fail).
      destruct (lookup id0 (sy_table (w_tsm w))) as [[o g']|] eqn:LO; (eapply (TA (AStep i)); [unfold exec; rewrite C, Np; cbn [step_of]; rewrite (LN eq_refl), LO; reflexivity|reflexivity|exact OI|reflexivity]).
Qed.

(** while time passes a call waits, and its context has not run out before *)
Lemma idle_waits : forall bcast me t d i x p rq, zreach bcast me (t_z t) -> z_dead (t_z t) = false -> 0 < d -> idle_for bcast me t d ->
  nth_error (w_ph (z_w (t_z t))) i = Some x -> req_of x = Some rq -> looping x = false -> nth_error (sy_thr (w_tsm (z_w (t_z t)))) i = Some p ->
  waits p = true /\ t_now t + d <= t_due t i.
Proof.
  intros bcast me t d i x p rq RE LV P ID N Q NL Np. pose proof (zreach_up _ _ _ RE LV) as U.
  assert (GO : forall j a w', w_of j a = true -> w_step a = true -> wexec me (z_w (t_z t)) a = Some w' -> fires a = false -> False).
  { intros j a w' O S E FI. apply (ID 0 j); [lia|]. exists (ZW a). eexists. split; [exact O|]. cbn [texec].
    replace (may_fire (later t 0) (ZW a)) with true.
    - cbn [later t_z]. unfold zexec, z_do_w. rewrite LV, S, E. reflexivity.
    - destruct a as [| | | | |b]; try reflexivity. destruct b; try reflexivity. discriminate FI. }
  assert (LK : sy_lock (w_tsm (z_w (t_z t))) = None \/ sy_lock (w_tsm (z_w (t_z t))) = Some i).
  { destruct (sy_lock (w_tsm (z_w (t_z t)))) as [k|] eqn:LK; [|auto]. exfalso.
    destruct (holder _ _ _ U LK) as (rq' & id' & g' & h' & tr' & r' & p' & o' & Nk & Npk & PU).
    destruct (enabled_kind me _ k _ p' rq' U Nk eq_refl eq_refl Npk (or_intror LK)) as [(a & w' & O & S & E & FI)|(WT & _)]; [exact (GO _ _ _ O S E FI)|].
    destruct p'; try discriminate PU; discriminate WT. }
  destruct (enabled_kind me _ i x p rq U N Q NL Np LK) as [(a & w' & O & S & E & FI)|(WT & w' & E)]; [destruct (GO _ _ _ O S E FI)|].
  split; [exact WT|]. destruct (Z_le_gt_dec (t_now t + d) (t_due t i)) as [L|L]; [exact L|]. exfalso.
  apply (ID (d - 1) i); [lia|]. exists (ZW (WTsm (ATimeout i))). eexists. split; [apply Nat.eqb_refl|]. cbn [texec may_fire later t_due t_now].
  replace (t_due t i <=? t_now t + (d - 1)) with true by (symmetry; apply Z.leb_le; lia). cbn [later t_z]. unfold zexec, z_do_w. rewrite LV. cbn [w_step]. rewrite E. reflexivity.
Qed.

(** ** The clocks *)
Lemma texec_do : forall bcast me t a t', texec bcast me t (TDo a) = Some t' ->
  exists z, may_fire t a = true /\ zexec bcast me (t_z t) a = Some z /\ t' = set_z (clocks t a) z.
Proof.
  intros bcast me t a t' H. cbn [texec] in H. destruct (may_fire t a); [|discriminate]. destruct (zexec bcast me (t_z t) a) as [z|]; [|discriminate].
  injection H as <-. eauto.
Qed.
Lemma clocks_now : forall t a, t_now (clocks t a) = t_now t.
Proof.
  intros t a. unfold clocks, clock_tsm, clock_utsm. destruct a as [| | | | |[| | | | |[]]|[| | | | | | |[]]]; try reflexivity.
  - destruct (nth_error _ _) as [[]|]; reflexivity.
  - destruct (nth_error _ _) as [[]|]; reflexivity.
Qed.
Lemma clocks_z : forall t a, t_z (clocks t a) = t_z t.
Proof.
  intros t a. unfold clocks, clock_tsm, clock_utsm. destruct a as [| | | | |[| | | | |[]]|[| | | | | | |[]]]; try reflexivity.
  - destruct (nth_error _ _) as [[]|]; reflexivity.
  - destruct (nth_error _ _) as [[]|]; reflexivity.
Qed.
Lemma at_same : forall f i v, at_ f i v i = v.
Proof. intros f i v. unfold at_. rewrite Nat.eqb_refl. reflexivity. Qed.
Lemma at_other : forall f i v j, j <> i -> at_ f i v j = f j.
Proof. intros f i v j D. unfold at_. rewrite (proj2 (Nat.eqb_neq j i) D). reflexivity. Qed.
Lemma due_other : forall t a i, z_of i a = false -> (forall rq, a <> ZRequest i rq) -> t_due (clocks t a) i = t_due t i.
Proof.
  intros t a i O R. unfold clocks, clock_tsm, clock_utsm. destruct a as [|j rq| | | |[| | | | |[]]|[| | | | | | |[]]]; try reflexivity.
  - apply at_other. intros ->. exact (R rq eq_refl).
  - cbn in O. apply Nat.eqb_neq in O. destruct (nth_error _ _) as [[]|]; try reflexivity. apply at_other. auto.
  - cbn in O. apply Nat.eqb_neq in O. destruct (nth_error _ _) as [[]|]; try reflexivity. apply at_other. auto.
Qed.
(** the clock of a call after a step of its own *)
Definition due_next (p : pc) (a : waction) (now due : Z) : Z :=
  match a, p with WTsm (AStep _), RecvLock _ => now + 5000 | _, _ => due end.
Lemma due_own : forall t a i p, w_of i a = true -> nth_error (sy_thr (w_tsm (z_w (t_z t)))) i = Some p ->
  t_due (clocks t (ZW a)) i = due_next p a (t_now t) (t_due t i).
Proof.
  intros t a i p O N. unfold clocks, clock_tsm, due_next. destruct a as [| | | | |[]]; try reflexivity.
  cbn in O. apply Nat.eqb_eq in O. subst. rewrite N. destruct p; try reflexivity. apply at_same.
Qed.

Fixpoint tos (h : list reply) : Z := match h with [] => 0 | inl CTimeout :: t => 1 + tos t | _ :: t => tos t end.
Lemma tos_app : forall h g, tos (h ++ g) = tos h + tos g.
Proof. induction h as [|[[]|] h IH]; intros g; cbn [tos app]; rewrite ?IH; lia. Qed.
Lemma tos_count : forall f, timeouts f = tos (fi_hist f).
Proof.
  intros f. unfold timeouts. induction (fi_hist f) as [|[[]|] h IH]; cbn [filter tos]; try exact IH; try reflexivity.
  cbn [length]. lia.
Qed.

(** what the clock says of a call that began at [c] *)
Definition low (c idw : Z) (x : phase) (p : pc) (now due : Z) : Prop :=
  match x with
  | NId _ => c <= now /\ match p with IDSpace | IDFree => due = c + idw | IDBack => c + idw <= now | _ => True end
  | NRun _ _ _ h _ _ | NPut _ _ _ h _ _ => c + 5000 * tos h <= now
  | NRecv _ _ _ h _ _ => c + 5000 * tos h <= now /\ match p with RecvLock _ => True | _ => c + 5000 * tos h + 5000 <= due end
  | _ => True
  end.
Definition len (h : list reply) : Z := Z.of_nat (length h).
Lemma len_app : forall h r, len (h ++ [r]) = len h + 1.
Proof. intros h r. unfold len. rewrite app_length. cbn [length]. lia. Qed.
Definition high (c idw : Z) (x : phase) (p : pc) (now due : Z) : Prop :=
  match x with
  | NId _ => match p with IDSpace | IDFree => due = c + idw /\ now <= due | _ => now <= c + idw end
  | NRun _ _ _ h _ _ | NPut _ _ _ h _ _ => now <= c + idw + 5000 * len h
  | NRecv _ _ _ h _ _ => match p with RecvLock _ => now <= c + idw + 5000 * len h | _ => due <= c + idw + 5000 * len h + 5000 /\ now <= due end
  | _ => True
  end.

Lemma low_hop : forall ins i x p a x' p' c idw now due, fits ins x p -> hop i x p a x' p' -> low c idw x p now due -> (fires a = true -> due <= now) ->
  low c idw x' p' now (due_next p a now due).
Proof.
  intros ins i x p a x' p' c idw now due F H L FI. destruct H as [x p b p' H| | | | | |]; cbn [low due_next fires] in *; rewrite ?tos_app; cbn [tos] in *; try lia.
  destruct x; cbn [fits] in F; try (destruct F; fail); try (subst p; inversion H; subst; discriminate); destruct H; cbn [low due_next fires] in *; try (destruct F; fail);
    try (specialize (FI eq_refl)); try lia; try (destruct p, p'; try discriminate; try (destruct F; fail); cbn in *; lia); exact L.
Qed.
Lemma low_end : forall i x p a f c idw now due, ends i x p a f -> low c idw x p now due -> (fires a = true -> due <= now) ->
  c + 5000 * timeouts f + (match fi_id f with None => idw | Some _ => 0 end) <= now.
Proof.
  intros i x p a f c idw now due H L FI. rewrite tos_count. destruct H; cbn [low fires fi_hist fi_id tos] in *; try (specialize (FI eq_refl)); lia.
Qed.
Lemma high_hop : forall ins i x p a x' p' c idw now due, fits ins x p -> hop i x p a x' p' -> high c idw x p now due -> 
  high c idw x' p' now (due_next p a now due).
Proof.
  intros ins i x p a x' p' c idw now due F H L. destruct H as [x p b p' H| | | | | |]; cbn [high due_next fires] in *; rewrite ?len_app; change (len []) with 0 in *; try lia.
  destruct x; cbn [fits] in F; try (destruct F; fail); try (subst p; inversion H; subst; discriminate); destruct H; cbn [high due_next fires] in *; try (destruct F; fail);
    try lia; try (destruct p, p'; try discriminate; try (destruct F; fail); cbn in *; lia); exact L.
Qed.
(** time passes *)
Lemma low_pass : forall c idw x p now due d, low c idw x p now due -> 0 < d -> low c idw x p (now + d) due.
Proof. intros c idw x p now due d L D. destruct x; cbn [low] in *; try exact I; try lia; destruct p; lia. Qed.
Lemma high_pass : forall ins c idw x p now due d, fits ins x p -> high c idw x p now due -> waits p = true -> now + d <= due -> high c idw x p (now + d) due.
Proof.
  intros ins c idw x p now due d F L W D. destruct x; cbn [fits high] in *; try exact I; destruct p; try discriminate W; try (destruct F; fail); try discriminate F; lia.
Qed.

(** ** Calls that have returned stay *)
Lemma wdone_grows : forall me w a w', wexec me w a = Some w' -> exists d, w_done w' = d ++ w_done w.
Proof.
  intros me w a w' E.
  assert (RT : forall s e, exists d, w_done (ModelSystem.returned me (with_tsm w s) e) = d ++ w_done w).
  { assert (NIL : exists d : list finished, w_done w = d ++ w_done w) by (exists []; reflexivity).
    assert (ONE : forall f : finished, exists d, f :: w_done w = d ++ w_done w) by (intros f; exists [f]; reflexivity).
    intros s e. destruct e; cbn [ModelSystem.returned with_tsm w_ph]; try exact NIL;
      unfold ModelSystem.handled, ModelSystem.received; cbn [with_tsm w_ph];
      repeat match goal with |- context [match ?x with _ => _ end] => destruct x end; cbn; auto. }
  unfold wexec in E. destruct (w_dead w); [discriminate|]. destruct a as [|k rq'|k src b|k ok|k|b].
  - destruct (exec _ _) as [s|]; [|discriminate]. injection E as <-. exists []. reflexivity.
  - destruct (nth_error (w_ph w) k) as [[]|]; try discriminate. destruct (exec _ _) as [s|]; [|discriminate]. injection E as <-. exists []. reflexivity.
  - destruct (nth_error (w_ph w) k) as [[]|]; try discriminate. destruct (handleMsg _ _ _) as [eff pn]. destruct (delivery eff) as [[id' pl]|].
    + destruct (exec _ _) as [s|]; [|discriminate]. injection E as <-. exists []. reflexivity.
    + destruct (sy_crash _); [discriminate|]. injection E as <-. exists []. destruct pn; reflexivity.
  - destruct (nth_error (w_ph w) k) as [[| |? ? ? ? ? [r|d kk]| | | |]|]; try discriminate. destruct ok.
    + destruct (exec _ _) as [s|]; [|discriminate]. injection E as <-. exists []. reflexivity.
    + destruct (sy_crash _); [discriminate|]. injection E as <-. exists []. reflexivity.
  - destruct (nth_error (w_ph w) k) as [[| |? ? ? ? ? [r|d kk]| | | |]|]; try discriminate. destruct r; try discriminate;
      try (destruct (exec _ _) as [s|]; [|discriminate]; injection E as <-; exists []; reflexivity).
    destruct (sy_crash _); [discriminate|]. injection E as <-. exists []. reflexivity.
  - destruct (inside b); [|discriminate]. destruct (exec _ _) as [s|]; [|discriminate].
    destruct (Nat.eqb _ _); [injection E as <-; exists []; reflexivity|]. destruct (sy_log s); injection E as <-; [exists []; reflexivity|]. apply RT.
Qed.
Lemma zdone_grows : forall bcast me z a z', zexec bcast me z a = Some z' -> exists d, w_done (z_w z') = d ++ w_done (z_w z).
Proof.
  intros bcast me z a z' E. pose proof (zexec_live _ _ _ _ _ E) as LV. unfold zexec in E. rewrite LV in E. unfold z_do_w, z_do_y in E.
  assert (NIL : exists d : list finished, w_done (z_w z) = d ++ w_done (z_w z)) by (exists []; reflexivity).
  destruct a as [|k rq'|k q|k src b|k|a|a].
  - destruct (wexec me (z_w z) WSpawn) as [w|] eqn:EW; [|discriminate]. destruct (yexec _ _ _ _) as [y|]; [|discriminate]. injection E as <-. exact (wdone_grows _ _ _ _ EW).
  - destruct (z_free _ _); [|discriminate]. destruct (wexec me _ _) as [w|] eqn:EW; [|discriminate]. injection E as <-. exact (wdone_grows _ _ _ _ EW).
  - destruct (z_free _ _); [|discriminate]. destruct (yexec _ _ _ _) as [y|]; [|discriminate]. injection E as <-. exact NIL.
  - destruct (z_free _ _); [|discriminate]. destruct (yexec _ _ _ _) as [y|]; [|discriminate]. injection E as <-. exact NIL.
  - destruct (nth_error (y_ph (z_y z)) k) as [[]|]; try discriminate E. destruct (nth_error (z_rest z) k) as [[[src b]|]|]; try discriminate E.
    destruct (wexec me _ _) as [w|] eqn:EW; [|discriminate]. injection E as <-. exact (wdone_grows _ _ _ _ EW).
  - destruct (w_step a); [|discriminate]. destruct (wexec me (z_w z) a) as [w|] eqn:EW; [|discriminate]. injection E as <-. exact (wdone_grows _ _ _ _ EW).
  - destruct (y_step a); [|discriminate]. destruct (yexec _ _ _ _) as [y|]; [|discriminate]. injection E as <-. exact NIL.
Qed.

(** ** One step of the client with its clock, seen by a call *)
Definition calling (i : nat) (rq : request) (t : timed) (x : phase) (p : pc) : Prop :=
  nth_error (w_ph (z_w (t_z t))) i = Some x /\ req_of x = Some rq /\ nth_error (sy_thr (w_tsm (z_w (t_z t)))) i = Some p.
Lemma req_hop : forall i x p a x' p' rq, hop i x p a x' p' -> req_of x = Some rq -> req_of x' = Some rq.
Proof. intros i x p a x' p' rq H Q. destruct H; exact Q. Qed.
Lemma req_end : forall i x p a f rq, ends i x p a f -> req_of x = Some rq -> fi_req f = rq /\ fi_thread f = i.
Proof. intros i x p a f rq H Q. destruct H; injection Q as ->; auto. Qed.
Lemma seen_step : forall bcast me t a t' i rq x p, zreach bcast me (t_z t) -> texec bcast me t (TDo a) = Some t' -> z_dead (t_z t') = false ->
  calling i rq t x p ->
  (calling i rq t' x p /\ t_due t' i = t_due t i /\ returned_of i t' = returned_of i t) \/
  (exists b x' p', hop i x p b x' p' /\ calling i rq t' x' p' /\ t_due t' i = due_next p b (t_now t) (t_due t i) /\
     (fires b = true -> t_due t i <= t_now t) /\ returned_of i t' = returned_of i t) \/
  (exists b f, ends i x p b f /\ (fires b = true -> t_due t i <= t_now t) /\ returned_of i t' = f :: returned_of i t).
Proof.
  intros bcast me t a t' i rq x p RE T LV' (N & Q & Np). destruct (texec_do _ _ _ _ _ T) as (z & M & E & ->). cbn [set_z t_z t_due] in *.
  pose proof (zexec_live _ _ _ _ _ E) as LV. pose proof (zreach_up _ _ _ RE LV) as U. pose proof (zreach_up _ _ _ (zreach_step _ _ _ _ _ RE E) LV') as U'.
  destruct (z_of i a) eqn:O.
  - right. destruct (own_is_w _ _ _ _ _ _ _ _ RE E N Q O) as (b & -> & EW & OW).
    assert (FI : fires b = true -> t_due t i <= t_now t).
    { intros FI. destruct b as [| | | | |[]]; try discriminate FI. cbn in OW. apply Nat.eqb_eq in OW. subst. cbn in M. lia. }
    destruct (own_moves _ _ _ _ _ _ _ _ U U' EW N Q Np OW) as [(f & D & EN & _)|(x' & p' & N' & Np' & H & D)].
    + right. exists b, f. split; [exact EN|]. split; [exact FI|]. unfold returned_of. cbn [set_z t_z]. rewrite D. cbn [filter].
      rewrite (proj2 (req_end _ _ _ _ _ _ EN Q)), Nat.eqb_refl. reflexivity.
    + left. exists b, x', p'. split; [exact H|]. split; [exact (conj N' (conj (req_hop _ _ _ _ _ _ _ H Q) Np'))|].
      split; [apply due_own; assumption|]. split; [exact FI|]. unfold returned_of. cbn [set_z t_z]. rewrite D. reflexivity.
  - left. destruct (z_other _ _ _ _ _ _ _ _ RE E N Q O) as (N' & Np' & D). split; [split; [exact N'|split; [exact Q|rewrite <- Np; exact Np']]|].
    split.
    + apply due_other; [exact O|]. intros rq' ->. unfold zexec in E. rewrite LV in E. destruct (z_free (t_z t) i) eqn:FR; [|discriminate].
      destruct (free_parts _ _ FR) as (F1 & _). rewrite N in F1. injection F1 as ->. discriminate Q.
    + unfold returned_of. cbn [set_z t_z]. destruct D as [->|(f & -> & NE)]; [reflexivity|]. cbn [filter]. rewrite (proj2 (Nat.eqb_neq _ _) NE). reflexivity.
Qed.
Lemma now_step : forall bcast me t a t', texec bcast me t a = Some t' -> t_now t <= t_now t'.
Proof.
  intros bcast me t [a|d] t' H.
  - destruct (texec_do _ _ _ _ _ H) as (z & _ & _ & ->). cbn [set_z t_now]. rewrite clocks_now. lia.
  - cbn [texec] in H. destruct (0 <? d) eqn:D; [|discriminate]. injection H as <-. cbn [t_now]. lia.
Qed.
Lemma now_do : forall bcast me t a t', texec bcast me t (TDo a) = Some t' -> t_now t' = t_now t.
Proof. intros bcast me t a t' H. destruct (texec_do _ _ _ _ _ H) as (z & _ & _ & ->). cbn [set_z t_now]. apply clocks_now. Qed.
Lemma reach_step : forall bcast me t a t', zreach bcast me (t_z t) -> texec bcast me t a = Some t' -> zreach bcast me (t_z t').
Proof.
  intros bcast me t [a|d] t' RE H.
  - destruct (texec_do _ _ _ _ _ H) as (z & _ & E & ->). exact (zreach_step _ _ _ _ _ RE E).
  - cbn [texec] in H. destruct (0 <? d); [|discriminate]. injection H as <-. exact RE.
Qed.
Lemma reach_run : forall bcast me l t t', zreach bcast me (t_z t) -> trun bcast me t l = Some t' -> zreach bcast me (t_z t').
Proof.
  intros bcast me l. induction l as [|a l IH]; intros t t' RE H; cbn [trun] in H; [injection H as <-; exact RE|].
  destruct (texec bcast me t a) as [t1|] eqn:E; [|discriminate]. exact (IH _ _ (reach_step _ _ _ _ _ RE E) H).
Qed.
Lemma reach_init : forall bcast me, zreach bcast me (t_z t_init).
Proof. intros bcast me. exists []. reflexivity. Qed.
Lemma live_back : forall bcast me l t t', trun bcast me t l = Some t' -> z_dead (t_z t') = false -> z_dead (t_z t) = false.
Proof.
  intros bcast me l. induction l as [|a l IH]; intros t t' H D; cbn [trun] in H; [injection H as <-; exact D|].
  destruct (texec bcast me t a) as [t1|] eqn:E; [|discriminate]. specialize (IH _ _ H D). destruct a as [a|d].
  - destruct (texec_do _ _ _ _ _ E) as (z & _ & Z & _). exact (zexec_live _ _ _ _ _ Z).
  - cbn [texec] in E. destruct (0 <? d); [|discriminate]. injection E as <-. exact IH.
Qed.
Lemma returned_grows : forall bcast me l t t' i, trun bcast me t l = Some t' -> exists d, returned_of i t' = d ++ returned_of i t.
Proof.
  intros bcast me l. induction l as [|a l IH]; intros t t' i H; cbn [trun] in H; [injection H as <-; exists []; reflexivity|].
  destruct (texec bcast me t a) as [t1|] eqn:E; [|discriminate]. destruct (IH _ _ i H) as (d & ->).
  assert (G : exists d1, returned_of i t1 = d1 ++ returned_of i t).
  { destruct a as [a|dd].
    - destruct (texec_do _ _ _ _ _ E) as (z & _ & Z & ->). destruct (zdone_grows _ _ _ _ _ Z) as (d1 & D). unfold returned_of. cbn [set_z t_z]. rewrite D, filter_app. eauto.
    - cbn [texec] in E. destruct (0 <? dd); [|discriminate]. injection E as <-. exists []. reflexivity. }
  destruct G as (d1 & ->). exists (d ++ d1). apply app_assoc.
Qed.
Lemma now_run : forall bcast me l t t', trun bcast me t l = Some t' -> t_now t <= t_now t'.
Proof.
  intros bcast me l. induction l as [|a l IH]; intros t t' H; cbn [trun] in H; [injection H as <-; lia|].
  destruct (texec bcast me t a) as [t1|] eqn:E; [|discriminate]. pose proof (now_step _ _ _ _ _ E). specialize (IH _ _ H). lia.
Qed.
(** a call begins *)
Lemma begins : forall bcast me t i rq t', texec bcast me t (TDo (ZRequest i rq)) = Some t' ->
  calling i rq t' (NId rq) IDSpace /\ t_now t' = t_now t /\ t_due t' i = t_now t + id_wait rq /\ returned_of i t' = returned_of i t.
Proof.
  intros bcast me t i rq t' T. destruct (texec_do _ _ _ _ _ T) as (z & _ & E & ->). cbn [clocks set_z set_due t_now t_due]. rewrite at_same. 
  pose proof (zexec_live _ _ _ _ _ E) as LV. unfold zexec in E. rewrite LV in E.
  destruct (z_free _ _) eqn:F; [|discriminate]. destruct (free_parts _ _ F) as (F1 & _). unfold z_do_w, wexec in E. destruct (w_dead _); [discriminate|]. rewrite F1 in E.
  unfold exec in E. destruct (sy_crash _); [discriminate|]. destruct (nth_error (sy_thr (w_tsm (z_w (t_z t)))) i) as [[]|] eqn:TH; try discriminate E.
  injection E as <-. split; [|auto]. split; [cbn; apply (upd_same _ _ _ _ _ F1)|]. split; [reflexivity|]. cbn. apply (upd_same _ _ _ _ _ TH).
Qed.

(** ** The lower bound *)
Definition lowed (i : nat) (rq : request) (c : Z) (old : list finished) (t : timed) : Prop :=
  (exists x p, calling i rq t x p /\ low c (id_wait rq) x p (t_now t) (t_due t i) /\ returned_of i t = old) \/
  (exists f d, returned_of i t = d ++ f :: old /\ fi_req f = rq /\ c + 5000 * timeouts f + (match fi_id f with None => id_wait rq | Some _ => 0 end) <= t_now t).
Lemma lowed_run : forall bcast me l t t' i rq c old, zreach bcast me (t_z t) -> trun bcast me t l = Some t' -> z_dead (t_z t') = false ->
  lowed i rq c old t -> lowed i rq c old t'.
Proof.
  intros bcast me l. induction l as [|a l IH]; intros t t' i rq c old RE H LV S; cbn [trun] in H; [injection H as <-; exact S|].
  destruct (texec bcast me t a) as [t1|] eqn:E; [|discriminate]. pose proof (live_back _ _ _ _ _ H LV) as LV1.
  apply (IH t1 t' i rq c old (reach_step _ _ _ _ _ RE E) H LV). destruct S as [(x & p & CA & LO & RO)|(f & d & RO & FQ & LO)].
  - destruct a as [a|d].
    + pose proof (now_do _ _ _ _ _ E) as NW. assert (F : exists ins, fits ins x p).
      { destruct (texec_do _ _ _ _ _ E) as (z & _ & Z & _). pose proof (zreach_up _ _ _ RE (zexec_live _ _ _ _ _ Z)) as U. destruct CA as (N & Q & Np).
        destruct (in_phase _ _ _ _ U N) as (p0 & Np0 & F). rewrite Np in Np0. injection Np0 as <-. eauto. }
      destruct F as (ins & F).
      destruct (seen_step _ _ _ _ _ _ _ _ _ RE E LV1 CA) as [(CA' & DU & RO')|[(b & x' & p' & H1 & CA' & DU & FI & RO')|(b & f & EN & FI & RO')]].
      * left. exists x, p. rewrite DU, NW. split; [exact CA'|]. split; [exact LO|congruence].
      * left. exists x', p'. rewrite DU, NW. split; [exact CA'|]. split; [exact (low_hop _ _ _ _ _ _ _ _ _ _ _ F H1 LO FI)|congruence].
      * right. exists f, []. rewrite NW. split; [rewrite RO', RO; reflexivity|]. split; [exact (proj1 (req_end _ _ _ _ _ _ EN (proj1 (proj2 CA))))|].
        exact (low_end _ _ _ _ _ _ _ _ _ EN LO FI).
    + left. exists x, p. cbn [texec] in E. destruct (0 <? d) eqn:D; [|discriminate]. injection E as <-. split; [exact CA|]. cbn [t_now t_due]. split; [apply low_pass; [exact LO|lia]|exact RO].
  - right. destruct (returned_grows bcast me [a] t t1 i) as (d1 & RO1); [cbn [trun]; rewrite E; reflexivity|].
    exists f, (d1 ++ d). split; [rewrite RO1, RO, app_assoc; reflexivity|]. split; [exact FQ|]. pose proof (now_step _ _ _ _ _ E). lia.
Qed.
Lemma never_early : forall bcast me l1 t0 i rq t1 l2 t2 f d, trun bcast me t_init l1 = Some t0 -> texec bcast me t0 (TDo (ZRequest i rq)) = Some t1 ->
  trun bcast me t1 l2 = Some t2 -> z_dead (t_z t2) = false -> returned_of i t2 = d ++ f :: returned_of i t0 ->
  fi_req f = rq /\ 5000 * timeouts f + (match fi_id f with None => id_wait rq | Some _ => 0 end) <= t_now t2 - t_now t0.
Proof.
  intros bcast me l1 t0 i rq t1 l2 t2 f d R1 E R2 LV RO. pose proof (reach_run _ _ _ _ _ (reach_init bcast me) R1) as RE.
  destruct (begins _ _ _ _ _ _ E) as (CA & NW & DU & RO1).
  assert (S : lowed i rq (t_now t0) (returned_of i t0) t1).
  { left. exists (NId rq), IDSpace. split; [exact CA|]. split; [cbn [low]; lia|exact RO1]. }
  destruct (lowed_run _ _ _ _ _ _ _ _ _ (reach_step _ _ _ _ _ RE E) R2 LV S) as [(x & p & _ & _ & RO2)|(f' & d' & RO2 & FQ & LO)].
  - exfalso. rewrite RO2 in RO. apply (f_equal (@length _)) in RO. rewrite app_length in RO. cbn [length] in RO. lia.
  - rewrite RO in RO2. assert (EQ : d = d' /\ f = f').
    { change (d ++ f :: returned_of i t0) with (d ++ [f] ++ returned_of i t0) in RO2. change (d' ++ f' :: returned_of i t0) with (d' ++ [f'] ++ returned_of i t0) in RO2.
      rewrite !app_assoc in RO2. apply app_inv_tail in RO2. apply app_inj_tail in RO2. exact RO2. }
    destruct EQ as [<- <-]. split; [exact FQ|lia].
Qed.

(** ** The upper bound *)
Definition attempts (rq : request) : nat := match rq with RqRead _ _ => 1 | _ => 2 end.
Lemma start_attempts : forall me rq id, depth (attempts rq) (start me rq id).
Proof.
  intros me rq id. destruct rq; try apply start_depth. cbn [start attempts]. apply depth_pmap.
  unfold ReadProperty_prog. destruct id; [|exact I]. destruct (enc_NPDU _ _) as [en|]; [|exact I].
  destruct (enc_ReadProperty _ _ _) as [[en2 [x|]]|]; try exact I. apply rp_depth.
Qed.
Lemma tried : forall me w i x rq, up me w -> nth_error (w_ph w) i = Some x -> req_of x = Some rq ->
  match x with
  | NRun _ _ _ h _ _ | NPut _ _ _ h _ _ => len h <= Z.of_nat (attempts rq)
  | NRecv _ _ _ h _ _ => len h + 1 <= Z.of_nat (attempts rq)
  | _ => True
  end.
Proof.
  intros me w i x rq U N Q. destruct (up_inv _ _ U) as ((l & IA) & _). pose proof (a_hist _ _ _ IA _ _ N) as HI. unfold len.
  destruct x as [|rq'|rq' id g h tr q|rq' id g h tr k|rq' id g h tr r|v|]; try exact I; injection Q as ->; cbn [hist_ok] in HI.
  - destruct HI as [F _]. destruct (feed_depth _ _ _ _ _ (start_attempts me rq (Some id)) F) as [L _]. rewrite map_length in L. lia.
  - destruct HI as [(tr0 & d & _ & F) _]. destruct (feed_depth _ _ _ _ _ (start_attempts me rq (Some id)) F) as [L D]. rewrite map_length in *.
    destruct (attempts rq - length h)%nat eqn:A; [destruct D|]. lia.
  - destruct HI as [F _]. destruct (feed_depth _ _ _ _ _ (start_attempts me rq (Some id)) F) as [L _]. rewrite map_length in L. lia.
Qed.
Definition highed (i : nat) (rq : request) (c : Z) (old : list finished) (t : timed) : Prop :=
  (exists x p, calling i rq t x p /\ high c (id_wait rq) x p (t_now t) (t_due t i) /\ returned_of i t = old) \/
  (exists f d, returned_of i t = d ++ f :: old /\ fi_req f = rq).
Lemma highed_run : forall bcast me l t t' i rq c old, zreach bcast me (t_z t) -> trun bcast me t l = Some t' -> prompt bcast me t l -> z_dead (t_z t') = false ->
  (lists rq = true -> forall la lb ta x, l = la ++ lb -> trun bcast me t la = Some ta -> nth_error (w_ph (z_w (t_z ta))) i = Some x -> looping x = false) ->
  highed i rq c old t -> highed i rq c old t'.
Proof.
  intros bcast me l. induction l as [|a l IH]; intros t t' i rq c old RE H PR LV NL S; cbn [trun] in H; [injection H as <-; exact S|].
  destruct (texec bcast me t a) as [t1|] eqn:E; [|discriminate]. pose proof (live_back _ _ _ _ _ H LV) as LV1. cbn [prompt] in PR. destruct PR as [PA PR].
  apply (IH t1 t' i rq c old (reach_step _ _ _ _ _ RE E) H (PR _ E) LV).
  { intros LI la lb ta x -> R. apply (NL LI (a :: la) lb ta x eq_refl). cbn [trun]. rewrite E. exact R. }
  destruct S as [(x & p & CA & LO & RO)|(f & d & RO & FQ)].
  - assert (LV0 : z_dead (t_z t) = false) by (apply (live_back bcast me [a] t t1); [cbn [trun]; rewrite E; reflexivity|exact LV1]).
    pose proof (zreach_up _ _ _ RE LV0) as U.
    assert (F : exists ins, fits ins x p).
    { destruct CA as (N & Q & Np). destruct (in_phase _ _ _ _ U N) as (p0 & Np0 & F). rewrite Np in Np0. injection Np0 as <-. eauto. }
    destruct F as (ins & F). destruct a as [a|d].
    + pose proof (now_do _ _ _ _ _ E) as NW.
      destruct (seen_step _ _ _ _ _ _ _ _ _ RE E LV1 CA) as [(CA' & DU & RO')|[(b & x' & p' & H1 & CA' & DU & FI & RO')|(b & f & EN & FI & RO')]].
      * left. exists x, p. rewrite DU, NW. split; [exact CA'|]. split; [exact LO|congruence].
      * left. exists x', p'. rewrite DU, NW. split; [exact CA'|]. split; [exact (high_hop _ _ _ _ _ _ _ _ _ _ _ F H1 LO)|congruence].
      * right. exists f, []. split; [rewrite RO', RO; reflexivity|]. exact (proj1 (req_end _ _ _ _ _ _ EN (proj1 (proj2 CA)))).
    + left. exists x, p. cbn [texec] in E. destruct (0 <? d) eqn:D; [|discriminate]. injection E as <-. split; [exact CA|]. cbn [t_now t_due]. split; [|exact RO].
      destruct CA as (N & Q & Np). assert (LX : looping x = false).
      { destruct (lists rq) eqn:LI; [|exact (only_lists_loop _ _ _ _ _ U N Q LI)]. exact (NL eq_refl [] _ t x eq_refl eq_refl N). }
      destruct (idle_waits bcast me t d i x p rq RE LV0) as [W1 W2]; auto; [lia|]. exact (high_pass _ _ _ _ _ _ _ _ F LO W1 W2).
  - right. destruct (returned_grows bcast me [a] t t1 i) as (d1 & RO1); [cbn [trun]; rewrite E; reflexivity|].
    exists f, (d1 ++ d). split; [rewrite RO1, RO, app_assoc; reflexivity|exact FQ].
Qed.
Lemma in_time : forall bcast me l1 t0 i rq t1 l2 t2, trun bcast me t_init l1 = Some t0 -> texec bcast me t0 (TDo (ZRequest i rq)) = Some t1 ->
  trun bcast me t1 l2 = Some t2 -> prompt bcast me t1 l2 -> z_dead (t_z t2) = false ->
  (lists rq = true -> forall la lb ta x, l2 = la ++ lb -> trun bcast me t1 la = Some ta -> nth_error (w_ph (z_w (t_z ta))) i = Some x -> looping x = false) ->
  limit rq < t_now t2 - t_now t0 -> exists f d, returned_of i t2 = d ++ f :: returned_of i t0 /\ fi_req f = rq.
Proof.
  intros bcast me l1 t0 i rq t1 l2 t2 R1 E R2 PR LV NL LI. pose proof (reach_run _ _ _ _ _ (reach_init bcast me) R1) as RE.
  destruct (begins _ _ _ _ _ _ E) as (CA & NW & DU & RO1).
  assert (S : highed i rq (t_now t0) (returned_of i t0) t1).
  { left. exists (NId rq), IDSpace. split; [exact CA|]. split; [cbn [high]; destruct rq; cbn [id_wait] in *; lia|exact RO1]. }
  destruct (highed_run _ _ _ _ _ _ _ _ _ (reach_step _ _ _ _ _ RE E) R2 PR LV NL S) as [(x & p & (N & Q & Np) & HI & _)|K]; [|exact K]. exfalso.
  pose proof (zreach_up _ _ _ (reach_run _ _ _ _ _ (reach_step _ _ _ _ _ RE E) R2) LV) as U.
  pose proof (tried _ _ _ _ _ U N Q) as A. destruct (in_phase _ _ _ _ U N) as (p0 & Np0 & F). rewrite Np in Np0. injection Np0 as <-.
  assert (LM : limit rq = id_wait rq + 5000 * Z.of_nat (attempts rq)) by (destruct rq; reflexivity).
  destruct x; try discriminate Q; cbn [high fits] in *; try lia; destruct p; try (destruct F; fail); lia.
Qed.

(** ** What the results say *)
Fixpoint blame {A} (e : cerr) (p : prog A) : Prop :=
  match p with PRet r => r <> CErr e /\ r <> CErr (CWrap e) | PTry _ k => forall x, x <> inl e -> x <> inl (CWrap e) -> blame e (k x) end.
Definition waiting_error (e : cerr) : Prop := e = CTimeout \/ e = CNoId.
Lemma waiting_diff : forall e, waiting_error e -> (forall x, CWrap x <> e) /\ CSend <> e /\ CNoData <> e /\ (forall x, CDec x <> e) /\ (forall x, CEnc x <> e) /\ (forall a b, CPdu a b <> e) /\ CTooLarge <> e /\ CZeroApdu <> e.
Proof. intros e [->| ->]; repeat split; discriminate. Qed.
Lemma blame_try : forall A e dest data (k : cerr + payload -> prog A), waiting_error e -> (forall x, x <> inl e -> x <> inl (CWrap e) -> blame e (k x)) -> blame e (try_send dest data k).
Proof.
  intros A e dest data k W H. unfold try_send. destruct (send_dgram _ _ _); [exact H|]. destruct (waiting_diff e W) as (_ & D & _). apply H; congruence.
Qed.
Lemma check_diff : forall e d x d', waiting_error e -> check_apdu d = (Some x, d') -> x <> e /\ x <> CWrap e.
Proof.
  intros e d x d' W H. destruct (waiting_diff e W) as (_ & _ & _ & D1 & _ & D2 & _). unfold check_apdu in H. destruct (dec_APDU d) as [[a [er|]] d2].
  - injection H as <- _. split; [apply D1|discriminate].
  - destruct (_ || _); [|discriminate]. injection H as <- _. split; [apply D2|discriminate].
Qed.
Lemma rp_blame : forall e n dest data last, waiting_error e -> last <> e -> last <> CWrap e -> blame e (rp_prog n dest data last).
Proof.
  intros e n. induction n as [|n IH]; intros dest data last W L1 L2; [split; congruence|]. cbn [rp_prog]. destruct (waiting_diff e W) as (DW & DS & DN & DD & DE & DP & _).
  apply blame_try; [exact W|]. intros [er|[b|c x]] X1 X2; [apply IH; congruence| |split; intros K; injection K; [apply DP|discriminate]].
  destruct (check_apdu (newDecoder b)) as [[er|] d] eqn:C; [destruct (check_diff _ _ _ _ W C); apply IH; auto|].
  destruct (dec_ReadProperty d) as [[[o|] [er|]] d'| |]; try (split; discriminate); try (apply IH; auto; congruence).
  destruct (derr d'); split; try discriminate. intros K. injection K. apply DD.
Qed.
Lemma wp_blame : forall e n dest data last, waiting_error e -> last <> e -> last <> CWrap e -> blame e (wp_prog n dest data last).
Proof.
  intros e n. induction n as [|n IH]; intros dest data last W L1 L2; [split; congruence|]. cbn [wp_prog]. destruct (waiting_diff e W) as (DW & DS & DN & DD & DE & DP & _).
  apply blame_try; [exact W|]. intros [er|[b|c x]] X1 X2; [apply IH; congruence| |split; intros K; injection K; [apply DP|discriminate]].
  destruct (check_apdu (newDecoder b)) as [[er|] d] eqn:C; cbn [fst]; [destruct (check_diff _ _ _ _ W C); apply IH; auto|split; discriminate].
Qed.
Lemma rpm_blame : forall e fuel n dest data last, waiting_error e -> last <> e -> last <> CWrap e -> blame e (rpm_prog fuel n dest data last).
Proof.
  intros e fuel n. induction n as [|n IH]; intros dest data last W L1 L2; destruct (waiting_diff e W) as (DW & DS & DN & DD & DE & DP & _);
    [split; intros K; injection K; [apply DW|congruence]|]. cbn [rpm_prog].
  apply blame_try; [exact W|]. intros [er|[b|c x]] X1 X2; [apply IH; congruence| |apply IH; auto; discriminate].
  destruct (check_apdu (newDecoder b)) as [[er|] d] eqn:C; [destruct (check_diff _ _ _ _ W C); apply IH; auto|].
  destruct (dec_ReadMultiplePropertyAck fuel d) as [[o [er|]] d'| |]; try (split; discriminate). apply IH; auto; discriminate.
Qed.
Lemma wpm_blame : forall e n dest data last, waiting_error e -> last <> e -> last <> CWrap e -> blame e (wpm_prog n dest data last).
Proof.
  intros e n. induction n as [|n IH]; intros dest data last W L1 L2; destruct (waiting_diff e W) as (DW & DS & DN & DD & DE & DP & _);
    [split; intros K; injection K; [apply DW|congruence]|]. cbn [wpm_prog].
  apply blame_try; [exact W|]. intros [er|[b|c x]] X1 X2; [apply IH; congruence| |apply IH; auto; discriminate].
  destruct (check_apdu (newDecoder b)) as [[er|] d] eqn:C; cbn [fst]; [destruct (check_diff _ _ _ _ W C); apply IH; auto|split; discriminate].
Qed.
Lemma blame_pmap : forall A B (f : A -> B) e p, blame e p -> blame e (pmap f p).
Proof. induction p as [r|g k IH]; intros H; cbn in *; [destruct r; cbn; split; try discriminate; destruct H; congruence|]. intros x X1 X2. apply IH, H; assumption. Qed.
Lemma start_blame : forall e me rq id, waiting_error e -> blame e (start me rq (Some id)).
Proof.
  intros e me rq id W. destruct (waiting_diff e W) as (DW & DS & DN & DD & DE & DP & DT & DZ).
  assert (PR : forall A x, x <> e -> x <> CWrap e -> blame e (PRet (A := A) (CErr x))) by (intros A x X1 X2; split; congruence).
  destruct rq; cbn [start]; apply blame_pmap.
  - unfold ReadProperty_prog. destruct (enc_NPDU _ _) as [en|]; [|split; discriminate].
    destruct (enc_ReadProperty _ _ _) as [[en2 [x|]]|]; [apply PR; [apply DE|discriminate]| |split; discriminate]. apply rp_blame; auto; discriminate.
  - unfold WriteProperty_prog. destruct (enc_NPDU _ _) as [en|]; [|split; discriminate].
    destruct (enc_WriteProperty _ _ _) as [[en2 x]|]; [|split; discriminate]. destruct (eerr en2); [apply PR; [apply DE|discriminate]|]. apply wp_blame; auto; discriminate.
  - unfold ReadMultiProperty_prog. destruct (dv_maxapdu d =? 0); [apply PR; [exact DZ|discriminate]|]. destruct (enc_NPDU _ _) as [en|]; [|split; discriminate].
    destruct (enc_ReadMultipleProperty _ _ _) as [[en2 [x|]]|]; [apply PR; [apply DE|discriminate]| |split; discriminate]. destruct (_ <? _); [apply PR; [exact DT|discriminate]|].
    apply rpm_blame; auto; discriminate.
  - unfold WriteMultiProperty_prog. destruct (enc_NPDU _ _) as [en|]; [|split; discriminate].
    destruct (enc_WriteMultiProperty _ _ _) as [[en2 x]|]; [|split; discriminate]. destruct (eerr en2); [apply PR; [apply DE|discriminate]|]. destruct (_ <? _); [apply PR; [exact DT|discriminate]|].
    apply wpm_blame; auto; discriminate.
Qed.
Lemma feed_blame : forall e h (p : prog answer) tr q, blame e p -> feed p h = Some (tr, q) -> ~ In (inl e) h -> ~ In (inl (CWrap e)) h -> blame e q.
Proof.
  intros e h. induction h as [|x h IH]; intros p tr q B F N1 N2; cbn [feed] in F; [injection F as <- <-; exact B|].
  destruct p as [r|d k]; [discriminate|]. destruct (feed (k x) h) as [[t q']|] eqn:E; [|discriminate]. injection F as <- <-.
  apply (IH (k x) t q'); auto; [apply B; intros ->; [apply N1|apply N2]; left; reflexivity| |]; intros K; [apply N1|apply N2]; right; exact K.
Qed.
Lemma tos_in : forall h, In (inl CTimeout) h -> 1 <= tos h.
Proof.
  induction h as [|x h IH]; [intros []|]. assert (P : forall g, 0 <= tos g) by (induction g as [|[[]|] g IG]; cbn [tos]; lia).
  intros [->|H]; [cbn [tos]; specialize (P h); lia|]. specialize (IH H). destruct x as [[]|]; cbn [tos]; lia.
Qed.
Lemma says_why : forall me w f, up me w -> In f (w_done w) ->
  (fi_result f = CErr CTimeout \/ fi_result f = CErr (CWrap CTimeout) -> 1 <= timeouts f) /\ (fi_result f = CErr CNoId -> fi_id f = None).
Proof.
  intros me w f U H. destruct (up_inv _ _ U) as ((l & IA) & _). pose proof (a_done _ _ _ IA f H) as D. unfold done_ok in D. rewrite tos_count.
  destruct (fi_id f) as [id|].
  - destruct D as [F R]. rewrite Forall_forall in R.
    assert (NW : forall e, ~ In (inl (CWrap e)) (map (told (w_in w)) (fi_hist f))).
    { intros e K. apply in_map_iff in K. destruct K as ([x|v] & K1 & K2); [|discriminate]. injection K1 as ->. destruct (R _ K2); discriminate. }
    split.
    + intros S. destruct (Z_le_gt_dec 1 (tos (fi_hist f))) as [K|K]; [exact K|]. exfalso.
      assert (B : blame CTimeout (PRet (fi_result f))).
      { apply (feed_blame _ _ _ _ _ (start_blame CTimeout me (fi_req f) id (or_introl eq_refl)) F); [|apply NW]. intros K2.
        apply in_map_iff in K2. destruct K2 as ([x|v] & K1 & K2); [|discriminate]. injection K1 as ->. apply tos_in in K2. lia. }
      destruct B as [B1 B2]. destruct S; congruence.
    + intros S. exfalso. assert (B : blame CNoId (PRet (fi_result f))).
      { apply (feed_blame _ _ _ _ _ (start_blame CNoId me (fi_req f) id (or_intror eq_refl)) F); [|apply NW]. intros K2.
        apply in_map_iff in K2. destruct K2 as ([x|v] & K1 & K2); [|discriminate]. injection K1 as ->. destruct (R _ K2); discriminate. }
      destruct B as [B _]. congruence.
  - destruct D as (_ & _ & D). rewrite start_none in D. injection D as D. split; [|reflexivity]. intros [S|S]; congruence.
Qed.
Lemma reported : forall bcast me l1 t0 i rq t1 l2 t2 f d, trun bcast me t_init l1 = Some t0 -> texec bcast me t0 (TDo (ZRequest i rq)) = Some t1 ->
  trun bcast me t1 l2 = Some t2 -> z_dead (t_z t2) = false -> returned_of i t2 = d ++ f :: returned_of i t0 ->
  (fi_result f = CErr CNoId -> id_wait rq <= t_now t2 - t_now t0) /\
  (fi_result f = CErr CTimeout \/ fi_result f = CErr (CWrap CTimeout) -> 5000 <= t_now t2 - t_now t0).
Proof.
  intros bcast me l1 t0 i rq t1 l2 t2 f d R1 E R2 LV RO. destruct (never_early _ _ _ _ _ _ _ _ _ _ _ R1 E R2 LV RO) as [_ NE].
  pose proof (reach_run _ _ _ _ _ (reach_step _ _ _ _ _ (reach_run _ _ _ _ _ (reach_init bcast me) R1) E) R2) as RE.
  assert (I : In f (w_done (z_w (t_z t2)))).
  { assert (I : In f (returned_of i t2)) by (rewrite RO; apply in_or_app; right; left; reflexivity). unfold returned_of in I. apply filter_In in I. exact (proj1 I). }
  destruct (says_why _ _ _ (zreach_up _ _ _ RE LV) I) as [S1 S2].
  assert (TP : 0 <= timeouts f) by (unfold timeouts; lia). assert (IP : 0 <= id_wait rq) by (destruct rq; cbn; lia).
  split; intros S; [rewrite (S2 S) in NE; lia|]. specialize (S1 S). destruct (fi_id f); lia.
Qed.

Lemma id_limit_wait : forall rq, id_limit rq = id_wait rq.
Proof. intros []; reflexivity. Qed.
Lemma never_early_limit : forall bcast me l1 t0 i rq t1 l2 t2 f d, trun bcast me t_init l1 = Some t0 -> texec bcast me t0 (TDo (ZRequest i rq)) = Some t1 ->
  trun bcast me t1 l2 = Some t2 -> z_dead (t_z t2) = false -> returned_of i t2 = d ++ f :: returned_of i t0 ->
  fi_req f = rq /\ 5000 * timeouts f + (match fi_id f with None => id_limit rq | Some _ => 0 end) <= t_now t2 - t_now t0.
Proof. intros. rewrite id_limit_wait. eapply never_early; eauto. Qed.
Lemma reported_limit : forall bcast me l1 t0 i rq t1 l2 t2 f d, trun bcast me t_init l1 = Some t0 -> texec bcast me t0 (TDo (ZRequest i rq)) = Some t1 ->
  trun bcast me t1 l2 = Some t2 -> z_dead (t_z t2) = false -> returned_of i t2 = d ++ f :: returned_of i t0 ->
  (fi_result f = CErr CNoId -> id_limit rq <= t_now t2 - t_now t0) /\
  (fi_result f = CErr CTimeout \/ fi_result f = CErr (CWrap CTimeout) -> 5000 <= t_now t2 - t_now t0).
Proof. intros. rewrite id_limit_wait. eapply reported; eauto. Qed.
