(** * Properties of many callers sharing one client *)

Require Import List ZArith Bool Lia Permutation.
From Verif Require Import ModelClient ModelSystem SpecSystem.
From Verif Require ModelTsm SpecTsm ProofsTsm ProofsTsmProps.
From Verif Require Import ProofsSystem.
Import ListNotations.
Import ModelTsm SpecTsm ProofsTsm ProofsTsmProps.
Open Scope Z_scope.

(** ** Every result is that of the call made alone *)

Lemma told_plain : forall nr ins id h, Forall (reply_ok nr ins id) h -> Forall plain (map (told ins) h).
Proof.
  intros nr ins id h H. induction H as [|x h Hx H IH]; constructor; [|exact IH].
  destruct x as [e|v]; cbn in *; auto.
Qed.

Lemma env_answers : forall nr ins id oid h k g p, Forall (reply_ok nr ins id) h ->
  at_reply (ev_att (env_of oid (map (told ins) h)) k g) = Some p ->
  exists a, In a ins /\ ar_load a = p /\ (nr -> ar_id a = id).
Proof.
  intros nr ins id oid h k g p H E. cbn in E.
  destruct (nth_in_or_default k (map (told ins) h) (inl CSend)) as [I|D]; [|rewrite D in E; discriminate].
  apply in_map_iff in I. destruct I as (x & Ex & Ix). rewrite <- Ex in E.
  rewrite Forall_forall in H. specialize (H x Ix). destruct x as [e|v]; cbn in *.
  - destruct e; discriminate.
  - destruct H as (a & Na & Q). rewrite Na in E. injection E as <-.
    exists a. split; [eapply nth_error_In; exact Na|auto].
Qed.

Lemma alone_hist : forall me l w rq id h tr r, winvA me l w ->
  feed (start me rq (Some id)) (map (told (w_in w)) h) = Some (tr, PRet r) ->
  Forall (reply_ok (fresh_run l) (w_in w) id) h ->
  exists e, ev_id e = Some id /\ alone e me rq = (tr, r) /\
    forall k g p, at_reply (ev_att e k g) = Some p ->
      exists id', answered l id' p /\ (fresh_run l -> id' = id).
Proof.
  intros me l w rq id h tr r IA F H.
  exists (env_of (Some id) (map (told (w_in w)) h)). split; [reflexivity|]. split.
  - rewrite alone_interp. cbn [env_of ev_id].
    apply (feed_interp (Some id) [] _ _ _ _ F). eapply told_plain. exact H.
  - intros k g p E. destruct (env_answers _ _ _ _ _ _ _ _ H E) as (a & Ia & <- & Q).
    destruct (a_in _ _ _ IA a Ia) as ((i & B) & D).
    exists (ar_id a). split; [|exact Q]. exists i, (ar_src a), (ar_bytes a). auto.
Qed.

(** ** The calls that return are the calls that were made *)

Definition winvC (l : list waction) (w : world) : Prop :=
  (forall i x rq, nth_error (w_ph w) i = Some x -> req_of x = Some rq -> In (WCall i rq) l) /\
  (forall f, In f (w_done w) -> In (WCall (fi_thread f) (fi_req f)) l).

Definition keeps (w w' : world) : Prop :=
  (forall j y rq, nth_error (w_ph w') j = Some y -> req_of y = Some rq ->
     exists x, nth_error (w_ph w) j = Some x /\ req_of x = Some rq) /\
  (forall f, In f (w_done w') -> In f (w_done w) \/
     exists x, nth_error (w_ph w) (fi_thread f) = Some x /\ req_of x = Some (fi_req f)).

Lemma keeps_same : forall w w', w_ph w' = w_ph w -> w_done w' = w_done w -> keeps w w'.
Proof. intros w w' P D. split; rewrite ?P, ?D; eauto. Qed.

Lemma keeps_ph : forall w i x y, nth_error (w_ph w) i = Some x -> (req_of y = req_of x \/ req_of y = None) ->
  keeps w (with_ph w i y).
Proof.
  intros w i x y N E. split; cbn; [|auto].
  intros j z rq Nz Rz. destruct (upd_inv _ _ _ _ _ _ Nz) as [[-> ->]|[D Nj]]; [|eauto].
  exists x. split; [exact N|]. destruct E; congruence.
Qed.

Lemma keeps_trans : forall w1 w2 w3, keeps w1 w2 -> keeps w2 w3 -> keeps w1 w3.
Proof.
  intros w1 w2 w3 [A1 A2] [B1 B2]. split.
  - intros j y rq N R. destruct (B1 j y rq N R) as (x & Nx & Rx). eauto.
  - intros f H. destruct (B2 f H) as [Q|(x & Nx & Rx)]; [auto|].
    destruct (A1 _ _ _ Nx Rx) as (x1 & Q1 & Q2). right. eauto.
Qed.

Lemma keeps_done : forall w i x f, nth_error (w_ph w) i = Some x -> req_of x = Some (fi_req f) ->
  fi_thread f = i -> keeps w (with_done (with_ph w i NFree) f).
Proof.
  intros w i x f N R T. destruct (keeps_ph w i x NFree N) as [A B]; [right; reflexivity|].
  split; [exact A|]. intros g [<-|H]; [|exact (B g H)]. right. exists x. rewrite T. auto.
Qed.

Lemma keeps_handled : forall w i v found, keeps w (handled w i v found).
Proof.
  intros w i v found. unfold handled.
  assert (keeps w (with_ph w i NFree)) as K.
  { split; cbn; [|auto]. intros j z rq Nz Rz.
    destruct (upd_inv _ _ _ _ _ _ Nz) as [[-> ->]|[D Nj]]; [discriminate|eauto]. }
  destruct (nth_error _ v); [|exact K]. destruct (snd _); [|exact K].
  destruct K. split; assumption.
Qed.

Lemma keeps_received : forall w j x, keeps w (received w j x).
Proof.
  intros w j x. unfold received. destruct (nth_error (w_ph w) j) as [[]|] eqn:N;
    try (apply keeps_same; reflexivity).
  eapply keeps_ph; [exact N|left; reflexivity].
Qed.

Lemma keeps_returned : forall me w e, keeps w (returned me w e).
Proof.
  intros me w e. destruct e; cbn [returned]; try (apply keeps_same; reflexivity).
  - destruct (nth_error (w_ph w) i) as [[]|] eqn:N; try (apply keeps_same; reflexivity).
    eapply keeps_ph; [exact N|left; reflexivity].
  - destruct (nth_error (w_ph w) i) as [[]|] eqn:N; try (apply keeps_same; reflexivity).
    destruct (start me rq None); [|eapply keeps_ph; [exact N|right; reflexivity]].
    eapply keeps_done; [exact N|reflexivity|reflexivity].
  - destruct (nth_error (w_ph w) i) as [[]|] eqn:N; try (apply keeps_same; reflexivity).
    eapply keeps_done; [exact N|reflexivity|reflexivity].
  - destruct (nth_error (w_ph w) i) as [[]|] eqn:N; try (apply keeps_same; reflexivity).
    eapply keeps_done; [exact N|reflexivity|reflexivity].
  - destruct (nth_error (w_ph w) i) as [[]|] eqn:N; try (apply keeps_same; reflexivity).
    apply keeps_handled.
  - eapply keeps_trans; [apply keeps_received|].
    destruct (nth_error (w_ph _) i) as [[]|] eqn:N; try (apply keeps_same; reflexivity).
    apply keeps_handled.
  - split; cbn; [|auto]. intros k z rq Nz Rz.
    destruct (upd_inv _ _ _ _ _ _ Nz) as [[-> ->]|[D Nj]]; [discriminate|eauto].
  - apply keeps_received.
  - split; cbn; [|auto]. intros k z rq Nz Rz.
    destruct (upd_inv _ _ _ _ _ _ Nz) as [[-> ->]|[D Nj]]; [discriminate|eauto].
Qed.

Lemma wstepC : forall me l w a w', winvC l w -> wexec me w a = Some w' -> winvC (l ++ [a]) w'.
Proof.
  intros me l w a w' [C1 C2] H.
  assert (keeps w w' -> winvC (l ++ [a]) w') as G.
  { intros [A B]. split.
    - intros i x rq N R. destruct (A i x rq N R) as (y & Ny & Ry). apply in_app_iff. eauto.
    - intros f Hf. apply in_app_iff. left. destruct (B f Hf) as [Q|(y & Ny & Ry)]; eauto. }
  unfold wexec in H. destruct (w_dead w); [discriminate|].
  destruct a as [|i rq|i src b|i ok|i|a].
  - destruct (exec _ _) as [s|]; [|discriminate]. injection H as <-. apply G. split; cbn; [|auto].
    intros j y rq N R. destruct (Nat.lt_ge_cases j (length (w_ph w))) as [Lt|Ge].
    + rewrite nth_error_app1 in N by exact Lt. eauto.
    + rewrite nth_error_app2 in N by exact Ge.
      destruct (j - length (w_ph w))%nat as [|[|m]]; cbn in N; try discriminate.
      injection N as <-. discriminate.
  - destruct (nth_error (w_ph w) i) as [[]|] eqn:N; try discriminate.
    destruct (exec _ _) as [s|]; [|discriminate]. injection H as <-. split; cbn.
    + intros j y rq1 Ny Ry. apply in_app_iff.
      destruct (upd_inv _ _ _ _ _ _ Ny) as [[-> ->]|[D Nj]]; [|eauto].
      cbn in Ry. injection Ry as ->. right. left. reflexivity.
    + intros f Hf. apply in_app_iff. eauto.
  - destruct (nth_error (w_ph w) i) as [[]|] eqn:N; try discriminate.
    destruct (handleMsg _ _ _) as [eff pan]. destruct (delivery eff) as [[id p]|].
    + destruct (exec _ _) as [s|]; [|discriminate]. injection H as <-. apply G.
      split; cbn; [|auto]. intros j y rq1 Ny Ry.
      destruct (upd_inv _ _ _ _ _ _ Ny) as [[-> ->]|[D Nj]]; [discriminate|eauto].
    + destruct (sy_crash _); [discriminate|]. injection H as <-. apply G.
      destruct pan; apply keeps_same; reflexivity.
  - destruct (nth_error (w_ph w) i) as [[| |rq id g h tr [r|d k]| | | |]|] eqn:N; try discriminate.
    destruct ok.
    + destruct (exec _ _) as [s|]; [|discriminate]. injection H as <-. apply G.
      eapply keeps_trans; [|eapply keeps_ph; [exact N|left; reflexivity]].
      apply keeps_same; reflexivity.
    + destruct (sy_crash _); [discriminate|]. injection H as <-. apply G.
      eapply keeps_ph; [exact N|left; reflexivity].
  - destruct (nth_error (w_ph w) i) as [[| |rq id g h tr [r|d k]| | | |]|] eqn:N; try discriminate.
    destruct r; try discriminate;
      try (destruct (exec _ _) as [s|]; [|discriminate]; injection H as <-; apply G;
           eapply keeps_trans; [|eapply keeps_ph; [exact N|left; reflexivity]];
           apply keeps_same; reflexivity).
    destruct (sy_crash _); [discriminate|]. injection H as <-. apply G. apply keeps_same; reflexivity.
  - destruct (inside a); [|discriminate]. destruct (exec _ _) as [s|]; [|discriminate].
    destruct (Nat.eqb _ _).
    + injection H as <-. apply G. apply keeps_same; reflexivity.
    + destruct (sy_log s) as [|e t]; injection H as <-; apply G; [apply keeps_same; reflexivity|].
      eapply keeps_trans; [|apply keeps_returned]. apply keeps_same; reflexivity.
Qed.

(** Induction over runs, with the invariants at hand. *)
Lemma wrun_snoc : forall me a l w0 w, wrun me w0 (l ++ [a]) = Some w ->
  exists w1, wrun me w0 l = Some w1 /\ wexec me w1 a = Some w.
Proof.
  intros me a l. induction l as [|b l IH]; intros w0 w H; cbn [wrun app] in *.
  - destruct (wexec me w0 a) eqn:E; [|discriminate]. injection H as <-. eauto.
  - destruct (wexec me w0 b) as [w1|]; [|discriminate]. apply IH. exact H.
Qed.

Lemma wrun_ind : forall me (P : list waction -> world -> Prop),
  P [] w_init ->
  (forall l w a w', wrun me w_init l = Some w -> winvA me l w -> winvB w -> P l w ->
     wexec me w a = Some w' -> P (l ++ [a]) w') ->
  forall l w, wrun me w_init l = Some w -> P l w.
Proof.
  intros me P P0 PS l. induction l as [|a l IH] using rev_ind; intros w H.
  - cbn in H. injection H as <-. exact P0.
  - destruct (wrun_snoc _ _ _ _ _ H) as (w1 & R & E).
    destruct (wreach _ _ _ R) as [A B]. eapply PS; eauto.
Qed.

Lemma wreachC : forall me l w, wrun me w_init l = Some w -> winvC l w.
Proof.
  intros me. apply wrun_ind.
  - split; [intros [|i] x rq N; discriminate|intros f []].
  - intros l w a w' _ _ _ C E. eapply wstepC; eauto.
Qed.

Lemma finished_alone : forall me l w f, wrun me w_init l = Some w -> In f (w_done w) ->
  In (WCall (fi_thread f) (fi_req f)) l /\
  exists e, ev_id e = fi_id f /\ alone e me (fi_req f) = (fi_sent f, fi_result f) /\
    from_the_wire l e /\
    (forallb (fun a => negb (recycles a)) l = true -> own_answers l e).
Proof.
  intros me l w f H Hf. split; [apply (wreachC _ _ _ H); exact Hf|].
  destruct (wreach _ _ _ H) as [IA IB]. pose proof (a_done _ _ _ IA f Hf) as D.
  unfold done_ok in D. destruct (fi_id f) as [id|].
  - destruct D as [F R]. destruct (alone_hist _ _ _ _ _ _ _ _ IA F R) as (e & E1 & E2 & E3).
    exists e. split; [exact E1|]. split; [exact E2|]. split.
    + intros k g p Ep. destruct (E3 k g p Ep) as (id' & A & Q). eauto.
    + intros Fr k g p Ep. destruct (E3 k g p Ep) as (id' & A & Q). exists id'.
      split; [|exact A]. rewrite E1. f_equal. symmetry. apply Q. exact Fr.
  - destruct D as (_ & -> & F).
    exists (mkEnv None (fun _ _ => mkAtt true None)). split; [reflexivity|]. split; [|split].
    + rewrite alone_interp. cbn [ev_id]. rewrite F. reflexivity.
    + intros k g p Ep. discriminate.
    + intros _ k g p Ep. discriminate.
Qed.

(** ** Identifiers of the calls in progress *)

Lemma outstanding_owns : forall x id, outstanding x = Some id <-> exists g, owns x = Some (id, g).
Proof.
  assert (forall x, outstanding x = match owns x with Some (id, _) => Some id | None => None end) as E
    by (intros []; reflexivity).
  intros x id. rewrite E. destruct (owns x) as [[a g]|]; split; intros H.
  - injection H as ->. eauto.
  - destruct H as [g' H]. congruence.
  - discriminate.
  - destruct H as [g' H]. discriminate.
Qed.

Lemma in_ids_of : forall l id, In id (ids_of l) <-> exists i x, nth_error l i = Some x /\ outstanding x = Some id.
Proof.
  intros l id. unfold ids_of. rewrite in_flat_map. split.
  - intros (x & Hx & H). apply In_nth_error in Hx. destruct Hx as [i Hi]. exists i, x.
    split; [exact Hi|]. destruct (outstanding x); [|destruct H]. destruct H as [->|[]]. reflexivity.
  - intros (i & x & N & E). exists x. split; [eapply nth_error_In; exact N|]. rewrite E. left. reflexivity.
Qed.

Lemma nodup_ids_of : forall l,
  (forall i j x y id, nth_error l i = Some x -> nth_error l j = Some y ->
     outstanding x = Some id -> outstanding y = Some id -> i = j) -> NoDup (ids_of l).
Proof.
  induction l as [|x l IH]; intros H; [constructor|].
  assert (NoDup (ids_of l)) as N.
  { apply IH. intros i j a b id Na Nb Ea Eb.
    assert (S i = S j) as Q by (apply (H (S i) (S j) a b id); assumption). lia. }
  cbn. destruct (outstanding x) as [id|] eqn:E; [|exact N]. cbn. constructor; [|exact N].
  intros I. apply in_ids_of in I. destruct I as (i & y & Ny & Ey).
  assert (0%nat = S i) as Q by (apply (H 0%nat (S i) x y id); auto). lia.
Qed.

Lemma ids_distinct : forall me l w, wrun me w_init l = Some w ->
  NoDup (ids_of (w_ph w)) /\ Forall (fun id => 1 <= id <= 254) (ids_of (w_ph w)) /\
  (length (ids_of (w_ph w)) <= 20)%nat.
Proof.
  intros me l w H. destruct (wreach _ _ _ H) as [IA IB].
  destruct (winvA_inv _ _ _ IA) as (I1 & I2 & I3).
  assert (NoDup (ids_of (w_ph w))) as N.
  { apply nodup_ids_of. intros i j x y id Nx Ny Ex Ey.
    apply outstanding_owns in Ex. apply outstanding_owns in Ey.
    destruct Ex as [g Ex], Ey as [g' Ey]. eapply (b_uniq _ IB); eauto. }
  assert (incl (ids_of (w_ph w)) (map fst (sy_table (w_tsm w)))) as Inc.
  { intros id Hid. apply in_ids_of in Hid. destruct Hid as (i & x & Nx & Ex).
    apply outstanding_owns in Ex. destruct Ex as [g Ex].
    destruct (b_own _ IB _ _ _ _ Nx Ex) as [o T].
    change id with (fst (id, (o, g))). now apply in_map. }
  split; [exact N|]. split.
  - apply Forall_forall. intros id Hid. apply all_ids_range, (i_range _ I1), Inc, Hid.
  - pose proof (NoDup_incl_length N Inc) as Q. rewrite map_length in Q.
    pose proof (i_size _ I1) as S1.
    destruct (a_tsm _ _ _ IA) as (tl & R & _).
    destruct (reach_inv defaultStateSize (w_tsm w)) as (_ & _ & _ & Sz); [exists tl; exact R|].
    rewrite Sz in S1. unfold defaultStateSize in S1. lia.
Qed.

(** ** Nothing stays behind *)

Lemma all_back : forall me l w, wrun me w_init l = Some w ->
  forallb no_call (w_ph w) = true ->
  in_progress (sy_log (w_tsm w)) = [] /\ Permutation (sy_ids (w_tsm w)) all_ids /\
  sy_space (w_tsm w) = 20%nat /\ sy_table (w_tsm w) = [] /\ sy_lock (w_tsm w) = None /\
  (forall p, In p (sy_thr (w_tsm w)) -> outside p = true).
Proof.
  intros me l w H F. rewrite forallb_forall in F.
  destruct (wreach _ _ _ H) as [IA IB].
  destruct (winvA_inv _ _ _ IA) as (I1 & I2 & I3).
  assert (sy_table (w_tsm w) = []) as T.
  { destruct (sy_table (w_tsm w)) as [|[id [o g]] t] eqn:E; [reflexivity|]. exfalso.
    destruct (b_all _ IB id o g) as (i & x & Nx & Ex); [rewrite E; left; reflexivity|].
    apply nth_error_In in Nx. specialize (F x Nx). destruct x; discriminate. }
  assert (forall i p, nth_error (sy_thr (w_tsm w)) i = Some p -> outside p = true /\ locked p = false) as O.
  { intros i p Hi. destruct (ph_of _ _ _ _ _ IA Hi) as (x & Nx & Fx).
    apply nth_error_In in Nx. specialize (F x Nx). destruct x; try discriminate F.
    - cbn in Fx. subst p. split; reflexivity.
    - destruct Fx as (a & _ & Q). destruct p; try destruct Q; split; reflexivity. }
  assert (forall p, In p (sy_thr (w_tsm w)) -> outside p = true) as Out.
  { intros p Hp. apply In_nth_error in Hp. destruct Hp as [i Hi]. apply (O i p Hi). }
  destruct (a_tsm _ _ _ IA) as (tl & R & _).
  destruct (nothing_lost defaultStateSize (w_tsm w)) as [P S]; [exists tl; exact R|exact Out|].
  assert (in_progress (sy_log (w_tsm w)) = []) as IP by (rewrite (i_log _ I1), T; reflexivity).
  rewrite IP in P, S. rewrite app_nil_r in P. cbn [length] in S. unfold defaultStateSize in S.
  repeat split; auto; [lia|].
  destruct (sy_lock (w_tsm w)) as [i|] eqn:L; [|reflexivity]. exfalso.
  destruct (i_held _ I1 i L) as [p Np]. apply (i_lock _ I1 i p Np) in L.
  destruct (O i p Np) as [_ Q]. congruence.
Qed.

(** ** What never happens to a call *)

Definition odd (e : ModelTsm.event) : bool :=
  match e with ERecvNil _ _ | ERecvErr _ _ | EPutErr _ _ => true | _ => false end.

Lemma returned_tsm : forall me w e, w_tsm (returned me w e) = w_tsm w.
Proof.
  intros me w e.
  assert (forall w i v b, w_tsm (handled w i v b) = w_tsm w) as Hh.
  { intros w0 i v b. unfold handled. destruct (nth_error _ v); [|reflexivity].
    destruct (snd _); reflexivity. }
  assert (forall w j x, w_tsm (received w j x) = w_tsm w) as Hr.
  { intros w0 j x. unfold received. destruct (nth_error _ j) as [[]|]; reflexivity. }
  destruct e as [i id o g|i|i id g|i id|k id g|i id v g|i id v|i sid sg j rid rg v|j id|j id|j id|i];
    cbn [returned]; try reflexivity; try apply Hr.
  - destruct (nth_error (w_ph w) i) as [[]|]; reflexivity.
  - destruct (nth_error (w_ph w) i) as [[]|]; try reflexivity. destruct (start me rq None); reflexivity.
  - destruct (nth_error (w_ph w) i) as [[]|]; reflexivity.
  - destruct (nth_error (w_ph w) i) as [[]|]; reflexivity.
  - destruct (nth_error (w_ph w) i) as [[]|]; try reflexivity. apply Hh.
  - destruct (nth_error (w_ph _) i) as [[]|]; rewrite ?Hh; apply Hr.
Qed.

Lemma none_odd : forall me l w, wrun me w_init l = Some w ->
  forall e, In e (sy_log (w_tsm w)) -> odd e = false.
Proof.
  intros me. refine (wrun_ind me (fun l w => forall e, In e (sy_log (w_tsm w)) -> odd e = false) _ _).
  - intros e [].
  - intros l w a w' _ IA IB IH H.
    destruct (winvA_inv _ _ _ IA) as (I1 & I2 & I3).
    assert (forall s, (forall e, In e (sy_log s) -> odd e = false) -> w_tsm w' = s ->
              forall e, In e (sy_log (w_tsm w')) -> odd e = false) as G by (intros s Q ->; exact Q).
    assert (forall i o s, exec (w_tsm w) (ACall i o) = Some s -> sy_log s = sy_log (w_tsm w)) as LC.
    { intros i o s E. unfold exec in E. destruct (sy_crash _); [discriminate|].
      destruct (nth_error (sy_thr (w_tsm w)) i) as [[]|]; try discriminate. injection E as <-. reflexivity. }
    pose proof H as H0. unfold wexec in H. destruct (w_dead w); [discriminate|].
    destruct a as [|i rq|i src b|i ok|i|a].
    + destruct (exec _ _) as [s|] eqn:E; [|discriminate]. injection H as <-. cbn [w_tsm].
      unfold exec in E. destruct (sy_crash _); [discriminate|]. injection E as <-. exact IH.
    + destruct (nth_error (w_ph w) i) as [[]|]; try discriminate.
      destruct (exec _ _) as [s|] eqn:E; [|discriminate]. injection H as <-.
      cbn [w_tsm with_tsm with_ph]. rewrite (LC _ _ _ E). exact IH.
    + destruct (nth_error (w_ph w) i) as [[]|]; try discriminate.
      destruct (handleMsg _ _ _) as [eff pan]. destruct (delivery eff) as [[id p]|].
      * destruct (exec _ _) as [s|] eqn:E; [|discriminate]. injection H as <-.
        cbn [w_tsm]. rewrite (LC _ _ _ E). exact IH.
      * destruct (sy_crash _); [discriminate|]. injection H as <-. destruct pan; exact IH.
    + destruct (nth_error (w_ph w) i) as [[| |rq id g h tr [r|d k]| | | |]|]; try discriminate.
      destruct ok.
      * destruct (exec _ _) as [s|] eqn:E; [|discriminate]. injection H as <-.
        cbn [w_tsm with_tsm with_ph]. rewrite (LC _ _ _ E). exact IH.
      * destruct (sy_crash _); [discriminate|]. injection H as <-. exact IH.
    + destruct (nth_error (w_ph w) i) as [[| |rq id g h tr [r|d k]| | | |]|]; try discriminate.
      destruct r; try discriminate;
        try (destruct (exec _ _) as [s|] eqn:E; [|discriminate]; injection H as <-;
             cbn [w_tsm with_tsm with_ph]; rewrite (LC _ _ _ E); exact IH).
      destruct (sy_crash _); [discriminate|]. injection H as <-. exact IH.
    + destruct (inside a) eqn:Ia; [|discriminate]. destruct (exec _ _) as [s|] eqn:E; [|discriminate].
      assert (w_tsm w' = s) as Ws.
      { destruct (Nat.eqb _ _); [injection H as <-; reflexivity|].
        destruct (sy_log s); injection H as <-; [reflexivity|]. rewrite returned_tsm. reflexivity. }
      rewrite Ws. clear H Ws.
      destruct (inside_tstep _ _ _ Ia E)
        as [Th Tab Gen Log|i p p' Np M Th Tab Gen Log|i p p' e Np En Th Tab Gen Log
           |i id o Np Lk Th Tab Gen Log|i id o g Np Th Tab Gen Log
           |i j sid v c sg rid rg D Np Nq Th Tab Gen Log|i Th Tab Gen Cr Log];
        rewrite Log; try exact IH; try (intros e' [<-|Q]; [reflexivity|exact (IH e' Q)]).
      intros e' [<-|Q]; [|exact (IH e' Q)].
      destruct (ph_of _ _ _ _ _ IA Np) as (x & N & F).
      assert (forall id g, owns x = Some (id, g) -> lookup id (sy_table (w_tsm w)) = None -> False) as NL.
      { intros id g Ow Lk. destruct (b_own _ IB _ _ _ _ N Ow) as [o T].
        rewrite (in_lookup _ _ _ (i_keys _ I1) T) in Lk. discriminate. }
      destruct En; try reflexivity; exfalso.
      * destruct x; cbn [fits] in F; try discriminate F; try (exact F);
          try (destruct F as (? & _ & []); fail). subst.
        eapply NL; [reflexivity|assumption].
      * destruct x; cbn [fits] in F; try discriminate F; try (exact F);
          try (destruct F as (? & _ & []); fail). destruct F as [-> ->].
        destruct (k_found _ I3 _ _ _ _ _ Np eq_refl) as [_ [(o & T & Do)|[kk Q]]].
        -- destruct (j_open _ I2 _ _ _ T) as [(ch & E1 & E2)|(kk & q & E1 & E2)]; [congruence|].
           destruct (ph_of _ _ _ _ _ IA E1) as (y & Ny & Fy).
           destruct y; cbn [fits] in Fy; destruct q; try discriminate Fy; try discriminate E2;
             try (destruct Fy; fail); try (destruct Fy as (? & _ & []); fail);
             cbn in E2; injection E2 as -> -> ->; destruct Fy as [-> ->].
           all: pose proof (b_uniq _ IB _ _ _ _ _ _ _ N Ny eq_refl eq_refl); subst; congruence.
        -- eapply (b_open _ IB); [exact N|reflexivity|reflexivity|exact Q].
      * destruct x; cbn [fits] in F; try discriminate F; try (exact F);
          try (destruct F as (? & _ & []); fail). subst.
        eapply NL; [reflexivity|assumption].
Qed.

(** ** What brings the process down *)

Lemma died_returned : forall me w e, w_dead w = false -> w_dead (returned me w e) = true ->
  exists a found, In a (w_in w) /\ snd (handleMsg (fun _ => found) (ar_src a) (ar_bytes a)) = true.
Proof.
  intros me w e D.
  assert (forall w i v b, w_dead w = false -> w_dead (handled w i v b) = true ->
    exists a found, In a (w_in w) /\ snd (handleMsg (fun _ => found) (ar_src a) (ar_bytes a)) = true) as Hh.
  { intros w0 i v b D0. unfold handled. cbn [with_ph w_in].
    destruct (nth_error (w_in w0) v) as [a|] eqn:N; cbn [with_ph w_dead]; [|congruence].
    destruct (snd (handleMsg _ _ _)) eqn:P; [|cbn [w_dead with_ph]; congruence].
    intros _. exists a, b. split; [eapply nth_error_In; exact N|exact P]. }
  assert (forall w j x, w_in (received w j x) = w_in w /\ w_dead (received w j x) = w_dead w) as Hr.
  { intros w0 j x. unfold received. destruct (nth_error _ j) as [[]|]; split; reflexivity. }
  destruct e as [i id o g|i|i id g|i id|k id g|i id v g|i id v|i sid sg j rid rg v|j id|j id|j id|i];
    cbn [returned]; try congruence.
  - destruct (nth_error (w_ph w) i) as [[]|]; cbn; congruence.
  - destruct (nth_error (w_ph w) i) as [[]|]; cbn; try congruence. destruct (start me rq None); cbn; congruence.
  - destruct (nth_error (w_ph w) i) as [[]|]; cbn; congruence.
  - destruct (nth_error (w_ph w) i) as [[]|]; cbn; congruence.
  - destruct (nth_error (w_ph w) i) as [[]|]; try congruence. apply Hh. exact D.
  - destruct (Hr w j (inr (Z.to_nat v))) as [R1 R2].
    destruct (nth_error (w_ph _) i) as [[]|]; try congruence.
    intros Q. rewrite <- R1. eapply Hh; [|exact Q]. congruence.
  - cbn. congruence.
  - rewrite (proj2 (Hr _ _ _)). congruence.
  - cbn. congruence.
Qed.

Definition killer (me : option address) (l : list waction) : Prop :=
  (exists i src b found, In (WArrive i src b) l /\ snd (handleMsg (fun _ => found) src b) = true) \/
  (exists i rq e, In (WCall i rq) l /\ snd (alone e me rq) = CPanic /\ from_the_wire l e).

Lemma killer_more : forall me l a, killer me l -> killer me (l ++ [a]).
Proof.
  intros me l a [(i & src & b & f & H & E)|(i & rq & e & H & E & W)].
  - left. exists i, src, b, f. split; [apply in_app_iff; auto|exact E].
  - right. exists i, rq, e. split; [apply in_app_iff; auto|]. split; [exact E|].
    intros k g p Ep. destruct (W k g p Ep) as (id & j & src & b & H1 & H2).
    exists id, j, src, b. split; [apply in_app_iff; auto|exact H2].
Qed.

Lemma died : forall me l w, wrun me w_init l = Some w -> w_dead w = true -> killer me l.
Proof.
  intros me. refine (wrun_ind me (fun l w => w_dead w = true -> killer me l) _ _); [discriminate|].
  intros l w a w' R IA IB IH H D'.
  unfold wexec in H. destruct (w_dead w) eqn:D; [discriminate|].
  destruct a as [|i rq|i src b|i ok|i|a].
  - destruct (exec _ _) as [s|]; [|discriminate]. injection H as <-. discriminate.
  - destruct (nth_error (w_ph w) i) as [[]|]; try discriminate.
    destruct (exec _ _) as [s|]; [|discriminate]. injection H as <-. cbn in D'. congruence.
  - destruct (nth_error (w_ph w) i) as [[]|]; try discriminate.
    destruct (handleMsg _ _ _) as [eff pan] eqn:HM. destruct (delivery eff) as [[id p]|].
    + destruct (exec _ _) as [s|]; [|discriminate]. injection H as <-. cbn in D'. congruence.
    + destruct (sy_crash _); [discriminate|]. injection H as <-. destruct pan; [|congruence].
      left. exists i, src, b, true. split; [apply in_app_iff; right; left; reflexivity|].
      rewrite HM. reflexivity.
  - destruct (nth_error (w_ph w) i) as [[| |rq id g h tr [r|d k]| | | |]|]; try discriminate.
    destruct ok.
    + destruct (exec _ _) as [s|]; [|discriminate]. injection H as <-. cbn in D'. congruence.
    + destruct (sy_crash _); [discriminate|]. injection H as <-. cbn in D'. congruence.
  - destruct (nth_error (w_ph w) i) as [[| |rq id g h tr [r|d k]| | | |]|] eqn:N; try discriminate.
    destruct r; try discriminate;
      try (destruct (exec _ _) as [s|]; [|discriminate]; injection H as <-; cbn in D'; congruence).
    apply killer_more. right.
    destruct (a_hist _ _ _ IA _ _ N) as [F Rp].
    destruct (alone_hist _ _ _ _ _ _ _ _ IA F Rp) as (e & E1 & E2 & E3).
    exists i, rq, e. split; [eapply (wreachC _ _ _ R); [exact N|reflexivity]|].
    split; [rewrite E2; reflexivity|]. intros k g0 p Ep. destruct (E3 k g0 p Ep) as (id' & A & _). eauto.
  - destruct (inside a); [|discriminate]. destruct (exec _ _) as [s|]; [|discriminate].
    assert (forall e, w_dead (returned me (with_tsm w s) e) = true -> killer me (l ++ [WTsm a])) as G.
    { intros e Q. destruct (died_returned me (with_tsm w s) e) as (x & fo & Ix & Px); [exact D|exact Q|].
      apply killer_more. left. destruct (a_in _ _ _ IA x Ix) as ((j & Q1) & _). eauto 8. }
    destruct (Nat.eqb _ _); [injection H as <-; cbn in D'; congruence|].
    destruct (sy_log s); injection H as <-; [cbn in D'; congruence|]. eapply G. exact D'.
Qed.

(** A Send that found its transaction carries what arrived for it. *)
Lemma answered_more : forall l a id p, answered l id p -> answered (l ++ [a]) id p.
Proof.
  intros l a id p (i & src & b & H1 & H2). exists i, src, b. split; [apply in_app_iff; auto|exact H2].
Qed.

Lemma found_answered : forall me l w, wrun me w_init l = Some w ->
  forall i id v g, In (ESendFound i id v g) (sy_log (w_tsm w)) -> exists p, answered l id p.
Proof.
  intros me. refine (wrun_ind me (fun l w => forall i id v g,
    In (ESendFound i id v g) (sy_log (w_tsm w)) -> exists p, answered l id p) _ _); [intros ? ? ? ? []|].
  intros l w a w' R IA IB IH H.
  assert (sy_log (w_tsm w') = sy_log (w_tsm w) -> forall i id v g,
    In (ESendFound i id v g) (sy_log (w_tsm w')) -> exists p, answered (l ++ [a]) id p) as G.
  { intros -> i id v g Q. destruct (IH _ _ _ _ Q) as [p A]. exists p. now apply answered_more. }
  assert (forall i o s, exec (w_tsm w) (ACall i o) = Some s -> sy_log s = sy_log (w_tsm w)) as LC.
  { intros i o s E. unfold exec in E. destruct (sy_crash _); [discriminate|].
    destruct (nth_error (sy_thr (w_tsm w)) i) as [[]|]; try discriminate. injection E as <-. reflexivity. }
  unfold wexec in H. destruct (w_dead w); [discriminate|].
  destruct a as [|i rq|i src b|i ok|i|a].
  - destruct (exec _ _) as [s|] eqn:E; [|discriminate]. injection H as <-. apply G. cbn [w_tsm].
    unfold exec in E. destruct (sy_crash _); [discriminate|]. injection E as <-. reflexivity.
  - destruct (nth_error (w_ph w) i) as [[]|]; try discriminate.
    destruct (exec _ _) as [s|] eqn:E; [|discriminate]. injection H as <-. apply G. exact (LC _ _ _ E).
  - destruct (nth_error (w_ph w) i) as [[]|]; try discriminate.
    destruct (handleMsg _ _ _) as [eff pan]. destruct (delivery eff) as [[id p]|].
    + destruct (exec _ _) as [s|] eqn:E; [|discriminate]. injection H as <-. apply G. exact (LC _ _ _ E).
    + destruct (sy_crash _); [discriminate|]. injection H as <-. apply G. destruct pan; reflexivity.
  - destruct (nth_error (w_ph w) i) as [[| |rq id g h tr [r|d k]| | | |]|]; try discriminate.
    destruct ok.
    + destruct (exec _ _) as [s|] eqn:E; [|discriminate]. injection H as <-. apply G. exact (LC _ _ _ E).
    + destruct (sy_crash _); [discriminate|]. injection H as <-. apply G. reflexivity.
  - destruct (nth_error (w_ph w) i) as [[| |rq id g h tr [r|d k]| | | |]|]; try discriminate.
    destruct r; try discriminate;
      try (destruct (exec _ _) as [s|] eqn:E; [|discriminate]; injection H as <-; apply G; exact (LC _ _ _ E)).
    destruct (sy_crash _); [discriminate|]. injection H as <-. apply G. reflexivity.
  - destruct (inside a) eqn:Ia; [|discriminate]. destruct (exec _ _) as [s|] eqn:E; [|discriminate].
    assert (w_tsm w' = s) as Ws.
    { destruct (Nat.eqb _ _); [injection H as <-; reflexivity|].
      destruct (sy_log s); injection H as <-; [reflexivity|]. rewrite returned_tsm. reflexivity. }
    rewrite Ws in *. clear H.
    assert (forall e, sy_log s = e :: sy_log (w_tsm w) ->
      match e with ESendFound _ id _ _ => exists p, answered l id p | _ => True end ->
      forall i id v g, In (ESendFound i id v g) (sy_log s) -> exists p, answered (l ++ [WTsm a]) id p) as G1.
    { intros e L Q i id v g. rewrite L. intros [->|Q1].
      - destruct Q as [p A]. exists p. now apply answered_more.
      - destruct (IH _ _ _ _ Q1) as [p A]. exists p. now apply answered_more. }
    destruct (inside_tstep _ _ _ Ia E)
      as [Th Tab Gen Log|i p p' Np M Th Tab Gen Log|i p p' e Np En Th Tab Gen Log
         |i id o Np Lk Th Tab Gen Log|i id o g Np Th Tab Gen Log
         |i j sid v c sg rid rg D Np Nq Th Tab Gen Log|i Th Tab Gen Cr Log];
      try (apply G; exact Log); try (apply (G1 _ Log); exact I).
    apply (G1 _ Log). destruct (ph_of _ _ _ _ _ IA Np) as (x & N & F).
    destruct En; try exact I.
    destruct x; cbn [fits] in F; try discriminate F; try (destruct F; fail).
    destruct F as (x & Nx & -> & _). apply nth_error_In in Nx.
    destruct (a_in _ _ _ IA x Nx) as ((j & Q1) & Q2). exists (ar_load x), j, (ar_src x), (ar_bytes x). auto.
Qed.

Lemma crashed : forall me l w, wrun me w_init l = Some w -> sy_crash (w_tsm w) = true ->
  exists i id v g t p, sy_log (w_tsm w) = ECrash i :: t /\ overtaken t i id v g /\ answered l id p.
Proof.
  intros me l w H C. destruct (wreach _ _ _ H) as [IA IB].
  destruct (a_tsm _ _ _ IA) as (tl & R & _).
  destruct (crash_only_overtaken defaultStateSize (w_tsm w)) as (i & id & v & g & t & E & O);
    [exists tl; exact R|exact C|].
  pose proof O as [O1 O2].
  destruct (found_answered _ _ _ H i id v g) as [p A]; [rewrite E; right; exact O1|].
  exists i, id, v, g, t, p. auto.
Qed.

(** ** The counterexample: another device's value *)

Definition wit_dev (n : Z) : device := mkDev (mkOid 8 n) 1476 (mkAddr 0 0 6 [10; 0; 0; n; 186; 192] []).
Definition wit_req (n : Z) : request :=
  RqRead (wit_dev n) (mkPD (mkObj [] [] (mkOid 0 1) [mkProp 85 4294967295 VNil 0])).
Definition wit_src (n : Z) : address := mkAddr 0 0 6 [10; 0; 0; n; 186; 192] [].
(** ReadProperty-ACK for analog-input 1, present-value: Real 21.5 *)
Definition wit_ack (id : Z) : list Z :=
  [129; 10; 0; 23; 1; 0; 48; id; 12; 12; 0; 0; 0; 1; 25; 85; 62; 68; 65; 172; 0; 0; 63].

Definition wit_id (i : nat) (k : option nat) : list waction :=
  [WTsm (AStep i); WTsm (AStep i); WTsm (AGet i k); WTsm (AStep i); WTsm (AStep i)].
Definition wit_wait (i : nat) : list waction := [WTx i true; WTsm (AStep i); WTsm (AStep i)].
Definition wit_put (i : nat) : list waction := WRet i :: repeat (WTsm (AStep i)) 6.

(** Call 0 asks device 1 and gets id 1.  The answer arrives and its handler
    (goroutine 1) finds the transaction.  Before it goes on, call 0 times out and
    releases its id.  Call 2 asks device 2, gets id 2 and the recycled object, and
    receives device 1's answer. *)
Definition wit_crossed : list waction :=
  [WSpawn; WSpawn; WSpawn; WCall 0 (wit_req 1)] ++ wit_id 0 None ++ wit_wait 0 ++
  [WArrive 1 (wit_src 1) (wit_ack 1); WTsm (AStep 1); WTsm (ATimeout 0)] ++ wit_put 0 ++
  [WCall 2 (wit_req 2)] ++ wit_id 2 (Some 0%nat) ++ wit_wait 2 ++
  [WTsm (AStep 1); WTsm (ADeliver 1 2)] ++ wit_put 2.

Lemma wit_no_answer : forall p, ~ answered wit_crossed 2 p.
Proof.
  intros p (i & src & b & H & D).
  assert (forall (a : waction), In a wit_crossed -> match a with WArrive _ s x => s = wit_src 1 /\ x = wit_ack 1 | _ => True end) as F.
  { apply Forall_forall. unfold wit_crossed, wit_id, wit_wait, wit_put. cbn [app repeat].
    repeat (constructor; [try exact I; split; reflexivity|]). constructor. }
  specialize (F _ H). cbn in F. destruct F as [-> ->].
  vm_compute in D. destruct D as [D|[]]. discriminate.
Qed.

Lemma crossed : exists w f, wrun None w_init wit_crossed = Some w /\ alive w = true /\ In f (w_done w) /\
  ~ exists e, ev_id e = fi_id f /\ alone e None (fi_req f) = (fi_sent f, fi_result f) /\ own_answers wit_crossed e.
Proof.
  destruct (wrun None w_init wit_crossed) as [w|] eqn:E; [|vm_compute in E; discriminate].
  assert (exists f, hd_error (w_done w) = Some f) as [f Hf].
  { vm_compute in E. injection E as <-. eexists. reflexivity. }
  exists w, f. split; [reflexivity|].
  assert (alive w = true /\ fi_req f = wit_req 2 /\ fi_id f = Some 2 /\ exists x, fi_result f = COk x) as (A & Q1 & Q2 & x & Q3).
  { vm_compute in E. injection E as <-. cbn in Hf. injection Hf as <-.
    repeat split; try reflexivity. eexists. reflexivity. }
  split; [exact A|]. split; [destruct (w_done w); [discriminate|]; injection Hf as ->; left; reflexivity|].
  intros (e & E1 & E2 & E3). rewrite Q1, Q3 in E2. rewrite Q2 in E1.
  assert (forall k g, at_reply (ev_att e k g) = None) as NR.
  { intros k g. destruct (at_reply (ev_att e k g)) as [p|] eqn:Ep; [|reflexivity].
    destruct (E3 k g p Ep) as (id & I1 & I2). rewrite E1 in I1. injection I1 as <-.
    exfalso. eapply wit_no_answer. exact I2. }
  rewrite alone_interp, E1 in E2.
  assert (exists d, start None (wit_req 2) (Some 2) = PTry d (fun r => pmap AnRead (match r with
      | inl err => PRet (CErr err)
      | inr (PErr c x) => PRet (CErr (CPdu c x))
      | inr (PBytes b) =>
        let '(err, d) := check_apdu (newDecoder b) in
        match err with
        | Some err => PRet (CErr err)
        | None =>
          match dec_ReadProperty d with
          | Panic => PRet CPanic
          | Fuel => PRet CDiverge
          | Val (Some out, None) d =>
              PRet (match derr d with None => COk out | Some x => CErr (CDec x) end)
          | Val (_, Some err) _ => PRet (CErr (CDec err))
          | Val (None, None) _ => PRet (CErr CNoData)
          end
        end
      end))) as [d St].
  { eexists. reflexivity. }
  rewrite St in E2. cbn [interp] in E2. unfold got in E2. rewrite NR in E2.
  destruct (at_sent _); cbn in E2; injection E2 as _ E2; discriminate.
Qed.

(** ** Who answers does not matter *)

Lemma source_ignored : forall known src src' b id p,
  In (ModelClient.EDeliver id p) (fst (handleMsg known src b)) <->
  In (ModelClient.EDeliver id p) (fst (handleMsg known src' b)).
Proof.
  assert (forall known src src' b id p,
    In (ModelClient.EDeliver id p) (fst (handleMsg known src b)) ->
    In (ModelClient.EDeliver id p) (fst (handleMsg known src' b))) as G; [|split; apply G].
  intros known src src' b id p. unfold handleMsg.
  destruct (dec_BVLC _) as [h d]. destruct (derr d); [intros []|].
  destruct (_ || _); [|intros []]. destruct (dec_NPDU d) as [[[n nets] err] d']. destruct err; [intros []|].
  set (pubs := if n_netmsg n then _ else _). unfold handle_apdu.
  destruct (dec_APDU d') as [[a e] d2].
  destruct e; [intros H; exact H|].
  destruct (p_type a =? pduUnconfirmed).
  - destruct (p_uservice a =? usvcIAm); [|intros H; exact H].
    destruct (dec_IAm _) as [[ia [e|]] d3| |]; intros H; try exact H.
    cbn in *. apply in_app_iff in H. apply in_app_iff. destruct H as [H|[H|[]]]; [auto|discriminate].
  - destruct ((p_type a =? pduSimpleAck) || _ || _); [intros H; exact H|].
    destruct (p_type a =? pduError); intros H; exact H.
Qed.

(** The whole life of one call that is answered. *)
Definition wit_answered (src : address) : list waction :=
  [WSpawn; WSpawn; WCall 0 (wit_req 1)] ++ wit_id 0 None ++ wit_wait 0 ++
  [WArrive 1 src (wit_ack 1); WTsm (AStep 1); WTsm (AStep 1); WTsm (ADeliver 1 0)] ++ wit_put 0.

Lemma stranger : exists w f, wrun None w_init (wit_answered (wit_src 66)) = Some w /\ alive w = true /\
  In f (w_done w) /\ fi_req f = wit_req 1 /\ (exists x, fi_result f = COk x) /\
  forall i src b, In (WArrive i src b) (wit_answered (wit_src 66)) -> src <> dv_addr (wit_dev 1).
Proof.
  destruct (wrun None w_init (wit_answered (wit_src 66))) as [w|] eqn:E; [|vm_compute in E; discriminate].
  assert (exists f, hd_error (w_done w) = Some f) as [f Hf].
  { vm_compute in E. injection E as <-. eexists. reflexivity. }
  exists w, f. split; [reflexivity|].
  assert (alive w = true /\ fi_req f = wit_req 1 /\ exists x, fi_result f = COk x) as (A & Q1 & x & Q3).
  { vm_compute in E. injection E as <-. cbn in Hf. injection Hf as <-.
    repeat split; try reflexivity. eexists. reflexivity. }
  split; [exact A|]. split; [destruct (w_done w); [discriminate|]; injection Hf as ->; left; reflexivity|].
  split; [exact Q1|]. split; [eauto|].
  intros i src b H.
  assert (forall (a : waction), In a (wit_answered (wit_src 66)) -> match a with WArrive _ s x => s = wit_src 66 | _ => True end) as F.
  { apply Forall_forall. unfold wit_answered, wit_id, wit_wait, wit_put. cbn [app repeat].
    repeat (constructor; [try exact I; reflexivity|]). constructor. }
  specialize (F _ H). cbn in F. subst src. discriminate.
Qed.

(** The device answers twice: the second handler is overtaken by Put. *)
Definition wit_twice : list waction :=
  [WSpawn; WSpawn; WSpawn; WCall 0 (wit_req 1)] ++ wit_id 0 None ++ wit_wait 0 ++
  [WArrive 1 (wit_src 1) (wit_ack 1); WArrive 2 (wit_src 1) (wit_ack 1);
   WTsm (AStep 1); WTsm (AStep 1); WTsm (AStep 2); WTsm (AStep 2); WTsm (ADeliver 1 0)] ++ wit_put 0 ++
  [WTsm (AStep 2)].

Lemma twice : exists l w, wrun None w_init l = Some w /\ sy_crash (w_tsm w) = true /\
  forall i src b, In (WArrive i src b) l -> src = wit_src 1 /\ b = wit_ack 1.
Proof.
  exists wit_twice. destruct (wrun None w_init wit_twice) as [w|] eqn:E; [|vm_compute in E; discriminate].
  exists w. split; [reflexivity|]. split; [vm_compute in E; injection E as <-; reflexivity|].
  intros i src b H.
  assert (forall (a : waction), In a wit_twice -> match a with WArrive _ s x => s = wit_src 1 /\ x = wit_ack 1 | _ => True end) as F.
  { apply Forall_forall. unfold wit_twice, wit_id, wit_wait, wit_put. cbn [app repeat].
    repeat (constructor; [try exact I; split; reflexivity|]). constructor. }
  exact (F _ H).
Qed.
