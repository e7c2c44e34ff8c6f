(** * Consequences of the invariants of the publish/subscribe manager *)

Require Import List ZArith Bool Lia.
Require Import Verif.ModelTsm Verif.ModelUtsm Verif.SpecUtsm Verif.ProofsTsm Verif.ProofsUtsm.
Import ListNotations.
Open Scope Z_scope.

(** ** C55 *)
Lemma received_exact : forall u i p s store, ureachable u ->
  nth_error (u_thr u) i = Some p -> receiving p = Some (s, store) ->
  exists lo hi rest, meant_for s (u_log u) = Some (lo, hi, store ++ queue u s ++ rest) /\
    (u_lock u = None -> rest = []) /\
    (rest = [] \/ exists k id v q, u_lock u = Some k /\ nth_error (u_thr u) k = Some q /\
       publishing q = Some (id, v) /\ lo <= id <= hi /\ rest = [v]).
Proof.
  intros u i p s store R N P. apply ureach_inv in R.
  destruct (e_sub u R _ _ _ _ N P) as (x & O & M).
  unfold queue. rewrite O. exists (sb_lo x), (sb_hi x), (pend (current u) s x).
  split; [exact M|]. split.
  - intros L. unfold current. rewrite L. reflexivity.
  - unfold current, cur. destruct (u_lock u) as [k|] eqn:L; [|left; reflexivity].
    destruct (nth_error (u_thr u) k) as [q|] eqn:Nk; [|left; reflexivity].
    destruct (todo q) as [[[id v] l]|] eqn:T; [|left; reflexivity].
    cbn [pend]. destruct (existsb (Nat.eqb s) l); [|left; reflexivity].
    destruct (in_range x id) eqn:IR; [|left; reflexivity].
    right. exists k, id, v, q. split; [reflexivity|]. split; [exact Nk|].
    unfold in_range in IR. apply andb_true_iff in IR. destruct IR as [I1 I2].
    apply Z.leb_le in I1. apply Z.leb_le in I2. split; [|split; [lia|reflexivity]].
    destruct q; cbn in T |- *; congruence.
Qed.

Lemma returned_prefix : forall u, ureachable u ->
  forall l1 i s store l2, u_log u = l1 ++ URet i s store :: l2 ->
  exists lo hi rest, meant_for s l2 = Some (lo, hi, store ++ rest) /\ (length rest <= 1)%nat.
Proof.
  intros u R l1 i s store l2 E. apply ureach_inv in R. pose proof (g_ret u R) as G.
  rewrite E in G. clear E. induction l1 as [|e l1 IH].
  - cbn in G. destruct G as [G _]. exact G.
  - apply IH. destruct e; cbn in G; tauto.
Qed.

(** ** C56 *)

(** No goroutine but the one in Publish holds the mutex of a subscriber. *)
Lemma sub_lock_holder : forall u s x k, uinv u -> nth_error (u_objs u) s = Some x ->
  sb_lock x = Some k -> u_lock u = Some k /\
  exists p, nth_error (u_thr u) k = Some p /\ sub_held p = Some s.
Proof.
  intros u s x k I O L. apply (b_lock u I s x O k) in L. destruct L as (p & N & H).
  split; [|eauto]. apply (a_lock u I k p N). eapply sub_held_pub. exact H.
Qed.

Lemma deadlock_is_embrace : forall u, ureachable u -> deadlocked u -> exists i j s, embrace u i j s.
Proof.
  intros u R [[i0 B0] D]. apply ureach_inv in R.
  destruct (u_lock u) as [k|] eqn:L.
  - destruct (a_held u R k L) as [p N].
    pose proof (proj2 (a_lock u R k p N) L) as Q.
    assert (busy u k) as B by (exists p; split; [exact N|]; intros ->; discriminate).
    destruct (D k B) as (D1 & _ & _). cbn [uexec] in D1. rewrite N in D1.
    assert (forall s v id rest, todo p = Some (id, v, s :: rest) ->
              exists x, nth_error (u_objs u) s = Some x) as OX.
    { intros s v id rest T. destruct (d_todo u R _ _ _ _ _ N T) as [pre E].
      assert (In s (u_subs u)) as W by (rewrite E; apply in_or_app; right; left; reflexivity).
      apply (sub_in_range u s R) in W. destruct (nth_error (u_objs u) s) eqn:O; [eauto|].
      apply nth_error_None in O. lia. }
    destruct p; try discriminate; cbn [ustep] in D1.
    + destruct rest as [|s rest]; [discriminate|].
      destruct (OX s v id rest eq_refl) as [x O]. rewrite O in D1.
      destruct (in_range x id); discriminate.
    + destruct (OX s v id rest eq_refl) as [x O]. rewrite O in D1.
      destruct (sb_lock x) as [m|] eqn:Lx; [|discriminate].
      destruct (sub_lock_holder u s x m R O Lx) as (Lm & q & Nm & Hm).
      assert (m = k) as -> by congruence. rewrite N in Nm. injection Nm as <-. discriminate.
    + destruct (OX s v id rest eq_refl) as [x O]. rewrite O in D1.
      destruct (Nat.ltb (length (sb_q x)) cap_q) eqn:LT; [discriminate|].
      apply Nat.ltb_ge in LT. unfold cap_q in LT.
      pose proof (d_held u R _ _ _ N eq_refl) as W. apply (c_reg u R) in W.
      destruct W as (j & q & st & Nj & Rj).
      exists k, j, s, id, v, rest. split; [exact N|].
      split; [unfold queue; rewrite O; lia|]. exists st.
      destruct q; cbn in Rj; try discriminate; injection Rj as -> ->; [left; exact Nj| |right; exact Nj].
      exfalso. assert (busy u j) as Bj by (eexists; split; [exact Nj|discriminate]).
      destruct (D j Bj) as (_ & _ & D3). cbn [uexec] in D3. rewrite Nj in D3. discriminate.
    + pose proof (d_held u R _ _ _ N eq_refl) as W. apply (sub_in_range u s R) in W.
      destruct (nth_error (u_objs u) s) eqn:O; [discriminate|]. apply nth_error_None in O. lia.
  - exfalso. destruct B0 as (p & N & NI).
    destruct (D i0 (ex_intro _ p (conj N NI))) as (D1 & D2 & D3). cbn [uexec] in D1, D2, D3.
    rewrite N in D1, D2, D3.
    pose proof (free_no_holder u i0 p R L N) as F.
    destruct p; try discriminate; try congruence; cbn [ustep] in D1; rewrite ?L in D1;
      try discriminate.
    + assert (s < length (u_objs u))%nat as W by (eapply (c_range u R); [exact N|cbn; auto]).
      destruct (nth_error (u_objs u) s) eqn:O; [discriminate|]. apply nth_error_None in O. lia.
    + assert (s < length (u_objs u))%nat as W by (eapply (c_range u R); [exact N|cbn; auto]).
      destruct (nth_error (u_objs u) s) as [x|] eqn:O; [|apply nth_error_None in O; lia].
      destruct (sb_lock x) as [m|] eqn:Lx; [|discriminate].
      destruct (sub_lock_holder u s x m R O Lx) as [Lm _]. congruence.
Qed.

Lemma embrace_lock : forall u i j s, uinv u -> embrace u i j s -> u_lock u = Some i.
Proof.
  intros u i j s I (id & v & rest & N & _). apply (a_lock u I i _ N). reflexivity.
Qed.

Lemma embrace_exec : forall u a u' i j s, uinv u -> embrace u i j s -> uexec u a = Some u' ->
  embrace u' i j s /\ u_log u' = u_log u.
Proof.
  intros u a u' i9 j9 s9 I E H. pose proof (embrace_lock u i9 j9 s9 I E) as L.
  destruct E as (id9 & v9 & rest9 & N9 & Q9 & st9 & P9).
  assert (exists x, nth_error (u_objs u) s9 = Some x /\ sb_lock x = Some i9 /\
                    (length (sb_q x) >= 1)%nat) as (x9 & O9 & L9 & QQ).
  { unfold queue in Q9. destruct (nth_error (u_objs u) s9) as [x|] eqn:O; [|cbn in Q9; lia].
    exists x. split; [reflexivity|]. split; [|exact Q9].
    apply (b_lock u I s9 x O i9). eexists. split; [exact N9|reflexivity]. }
  (* whoever holds the mutex of the manager is i9 *)
  assert (forall k p, nth_error (u_thr u) k = Some p -> pub_holds p = true -> k = i9) as HK.
  { intros k p N P. apply (a_lock u I k p N) in P. congruence. }
  assert (forall k p s, nth_error (u_thr u) k = Some p -> In s (owned p) -> s = s9 -> k = j9) as HJ.
  { intros k p s N W ->. destruct P9 as [P9|P9];
      (eapply (c_own u I); [exact N|exact P9|exact W|cbn; auto]). }
  assert (forall k a p', nth_error (u_thr u) k = Some a -> k <> i9 -> k <> j9 ->
     forall objs, (match nth_error objs s9 with Some x => sb_q x | None => [] end) = sb_q x9 ->
     embrace (mkU (u_lock u) (u_subs u) objs (upd (u_thr u) k p') (u_log u)) i9 j9 s9) as MV.
  { intros k b p' Nk Di Dj objs Ob. exists id9, v9, rest9. cbn [u_thr u_objs].
    split; [rewrite upd_other by exact Di; exact N9|].
    split; [unfold queue; cbn [u_objs]; rewrite Ob; exact QQ|].
    exists st9. rewrite upd_other by exact Dj. exact P9. }
  assert ((match nth_error (u_objs u) s9 with Some x => sb_q x | None => [] end) = sb_q x9) as Q0
    by (rewrite O9; reflexivity).
  assert (forall k p, nth_error (u_thr u) k = Some p ->
     (forall id v s r, p <> PubSend id v s r) -> k <> i9) as NI.
  { intros k p Nk Dp ->. rewrite N9 in Nk. injection Nk as <-. now apply (Dp id9 v9 s9 rest9). }
  assert (forall k p, nth_error (u_thr u) k = Some p -> k = j9 ->
     p = SubTime s9 st9 \/ p = SubRem s9 st9) as PJ.
  { intros k p Nk ->. destruct P9 as [P9|P9]; rewrite P9 in Nk; injection Nk as <-; auto. }
  clear Q9. symmetry in N9, O9, L.
  uexec_cases H; symmetry in N9, O9, L; unfold u_set, u_setlock, u_setsubs, u_setobjs, u_setthr, u_note; ufields;
    (* steps of the holder *)
    try (exfalso; assert (i = i9) as -> by (eapply HK; [exact Hth|reflexivity]);
         rewrite N9 in Hth; discriminate Hth);
    (* waiting for the mutex of the manager *)
    try congruence;
    (* others *)
    try (split; [|reflexivity];
         apply (MV i _ _ Hth); [eapply NI; [exact Hth|discriminate]
           |intros W; destruct (PJ _ _ Hth W); discriminate|exact Q0]).
  - (* VSpawn *) split; [|reflexivity]. exists id9, v9, rest9. cbn [u_thr u_objs].
    split; [rewrite nth_error_app1; [exact N9|apply nth_error_Some; congruence]|].
    split; [unfold queue; cbn [u_objs]; rewrite O9; exact QQ|]. exists st9.
    destruct P9 as [P9|P9]; [left|right]; rewrite nth_error_app1; try exact P9;
      apply nth_error_Some; congruence.
  - (* the blocked send *)
    exfalso. assert (i = i9) as -> by (eapply HK; [exact Hth|reflexivity]).
    rewrite N9 in Hth. injection Hth as -> -> -> ->. rewrite O9 in Hob. injection Hob as <-.
    match goal with W : Nat.ltb _ _ = true |- _ => apply Nat.ltb_lt in W; unfold cap_q in W end. lia.
  - (* a new subscriber object *)
    split; [|reflexivity].
    apply (MV i _ _ Hth); [eapply NI; [exact Hth|discriminate]
           |intros W; destruct (PJ _ _ Hth W); discriminate|].
    rewrite nth_error_app1 by (apply nth_error_Some; congruence). exact Q0.
  - (* getTimeout of somebody *)
    split; [|reflexivity].
    assert (s <> s9) as Ds by (intros ->; rewrite O9 in Hob; injection Hob as <-; congruence).
    apply (MV i _ _ Hth); [eapply NI; [exact Hth|discriminate]| |exact Q0].
    intros W. destruct (PJ _ _ Hth W) as [W2|W2]; [|discriminate]. congruence.
  - (* reception by somebody *)
    split; [|reflexivity].
    assert (i <> j9) as Dj by (intros W; destruct (PJ _ _ Hth W); discriminate).
    apply (MV i _ _ Hth); [eapply NI; [exact Hth|discriminate]|exact Dj|].
    rewrite upd_other; [exact Q0|]. intros ->. apply Dj. eapply HJ; [exact Hth|cbn; auto|reflexivity].
Qed.

Lemma embrace_forever : forall l u u' i j s, ureachable u -> embrace u i j s ->
  urun u l = Some u' ->
  embrace u' i j s /\ u_lock u' = Some i /\ u_log u' = u_log u.
Proof.
  intros l u u' i j s R. apply ureach_inv in R. revert u R.
  induction l as [|a l IH]; intros u R E H; cbn in H.
  - injection H as <-. split; [exact E|]. split; [|reflexivity].
    eapply embrace_lock; eassumption.
  - destruct (uexec u a) as [v|] eqn:X; [|discriminate].
    destruct (embrace_exec u a v i j s R E X) as [E' Lg].
    destruct (IH v (uexec_inv u a v R X) E' H) as (A & B & C).
    split; [exact A|]. split; [exact B|]. congruence.
Qed.

(** ** Publish completes when there is room *)

Definition put_all (id v : Z) (s : nat) (x : sub) (l : list nat) : sub :=
  if existsb (Nat.eqb s) l && in_range x id
  then mkSub (sb_lo x) (sb_hi x) (sb_q x ++ [v]) (sb_lock x) else x.

Lemma urun_app : forall l1 l2 u, urun u (l1 ++ l2) =
  match urun u l1 with Some u' => urun u' l2 | None => None end.
Proof.
  induction l1 as [|a l1 IH]; intros l2 u; [reflexivity|]. cbn.
  destruct (uexec u a); [apply IH|reflexivity].
Qed.

Lemma publish_loop : forall l u i id v, uinv u ->
  nth_error (u_thr u) i = Some (PubLoop id v l) -> NoDup l ->
  (forall s x, In s l -> nth_error (u_objs u) s = Some x -> in_range x id = true -> sb_q x = []) ->
  exists k u', urun u (repeat (VStep i) k) = Some u' /\
    nth_error (u_thr u') i = Some UIdle /\ u_lock u' = None /\ u_subs u' = u_subs u /\
    u_log u' = UPubRet i :: u_log u /\
    (forall j, j <> i -> nth_error (u_thr u') j = nth_error (u_thr u) j) /\
    (forall s x, nth_error (u_objs u) s = Some x ->
       nth_error (u_objs u') s = Some (put_all id v s x l)).
Proof.
  induction l as [|s l IH]; intros u i id v I N ND Q.
  - exists 1%nat. eexists. cbn [repeat urun uexec]. rewrite N. cbn [ustep].
    split; [reflexivity|]. ufields. erewrite upd_same by exact N.
    split; [reflexivity|]. split; [reflexivity|]. split; [reflexivity|].
    split; [reflexivity|]. split.
    + intros j D. apply upd_other. congruence.
    + intros s x O. unfold put_all. cbn. exact O.
  - inversion ND as [|? ? NI ND']; subst.
    assert (exists x, nth_error (u_objs u) s = Some x) as [x O].
    { destruct (d_todo u I _ _ _ _ _ N eq_refl) as [pre E].
      assert (In s (u_subs u)) as W by (rewrite E; apply in_or_app; right; left; reflexivity).
      apply (sub_in_range u s I) in W. destruct (nth_error (u_objs u) s) eqn:O; [eauto|].
      apply nth_error_None in O. lia. }
    assert (in_range x id = true -> sb_q x = []) as Qx
      by (exact (Q s x (or_introl eq_refl) O)).
    assert (sb_lock x = None) as Lx.
    { destruct (sb_lock x) as [m|] eqn:Lx; [|reflexivity].
      destruct (sub_lock_holder u s x m I O Lx) as (Lm & q & Nm & Hm).
      pose proof (proj1 (a_lock u I i _ N) eq_refl) as Li.
      assert (m = i) as -> by congruence. rewrite N in Nm. injection Nm as <-. discriminate. }
    destruct (in_range x id) eqn:IR.
    + (* four steps *)
      specialize (Qx eq_refl).
      set (x1 := mkSub (sb_lo x) (sb_hi x) [v] None).
      assert (exists u1, urun u (repeat (VStep i) 4) = Some u1 /\
                u_lock u1 = u_lock u /\ u_subs u1 = u_subs u /\ u_log u1 = u_log u /\
                nth_error (u_thr u1) i = Some (PubLoop id v l) /\
                (forall j, j <> i -> nth_error (u_thr u1) j = nth_error (u_thr u) j) /\
                nth_error (u_objs u1) s = Some x1 /\
                (forall s', s' <> s -> nth_error (u_objs u1) s' = nth_error (u_objs u) s'))
        as (u1 & R1 & A1 & A2 & A3 & A4 & A5 & A6 & A7).
      { cbn [repeat urun uexec]. rewrite N. cbn [ustep]. rewrite O, IR. ufields.
        erewrite upd_same by exact N. cbn [ustep]. ufields. rewrite O, Lx. ufields.
        erewrite upd_same by (erewrite upd_same by exact N; reflexivity). cbn [ustep]. ufields.
        erewrite upd_same by exact O. cbn [sb_q sb_lo sb_hi sb_lock]. rewrite Qx.
        cbn [length Nat.ltb Nat.leb cap_q app]. ufields.
        erewrite upd_same; [|erewrite upd_same; [reflexivity|erewrite upd_same by exact N; reflexivity]].
        cbn [ustep]. ufields.
        erewrite upd_same; [|erewrite upd_same by exact O; reflexivity].
        cbn [sb_q sb_lo sb_hi sb_lock].
        eexists. split; [reflexivity|]. ufields.
        split; [reflexivity|]. split; [reflexivity|]. split; [reflexivity|].
        split.
        { erewrite upd_same; [reflexivity|]. erewrite upd_same; [reflexivity|].
          erewrite upd_same; [reflexivity|]. erewrite upd_same by exact N. reflexivity. }
        split.
        { intros j D. rewrite !upd_other by congruence. reflexivity. }
        split.
        { erewrite upd_same; [reflexivity|]. erewrite upd_same; [reflexivity|].
          erewrite upd_same by exact O. reflexivity. }
        intros s' D. rewrite !upd_other by congruence. reflexivity. }
      assert (uinv u1) as I1 by (eapply urun_inv; [exact I|exact R1]).
      destruct (IH u1 i id v I1 A4 ND') as (k & u2 & R2 & B1 & B2 & B3 & B4 & B5 & B6).
      { intros s' y W. rewrite A7 by (intros ->; contradiction).
        apply (Q s'). right. exact W. }
      exists (4 + k)%nat, u2. rewrite repeat_app, urun_app, R1.
      split; [exact R2|]. split; [exact B1|]. split; [exact B2|]. split; [congruence|].
      split; [congruence|]. split.
      { intros j D. rewrite B5, A5 by exact D. reflexivity. }
      intros s' y O'. unfold put_all. cbn [existsb].
      destruct (Nat.eq_dec s' s) as [->|D].
      * rewrite (B6 s x1 A6). unfold put_all.
        assert (existsb (Nat.eqb s) l = false) as ->.
        { destruct (existsb (Nat.eqb s) l) eqn:EX; [|reflexivity]. apply existsb_in in EX. contradiction. }
        rewrite O in O'. injection O' as <-. rewrite Nat.eqb_refl, IR. cbn.
        rewrite Qx, Lx. reflexivity.
      * destruct (Nat.eqb_spec s' s) as [->|_]; [congruence|]. cbn [orb].
        rewrite <- (A7 s' D) in O'. rewrite (B6 s' y O'). reflexivity.
    + assert (exists u1, urun u (repeat (VStep i) 1) = Some u1 /\
                u_lock u1 = u_lock u /\ u_subs u1 = u_subs u /\ u_log u1 = u_log u /\
                nth_error (u_thr u1) i = Some (PubLoop id v l) /\
                (forall j, j <> i -> nth_error (u_thr u1) j = nth_error (u_thr u) j) /\
                u_objs u1 = u_objs u)
        as (u1 & R1 & A1 & A2 & A3 & A4 & A5 & A6).
      { cbn [repeat urun uexec]. rewrite N. cbn [ustep]. rewrite O, IR.
        eexists. split; [reflexivity|]. ufields.
        split; [reflexivity|]. split; [reflexivity|]. split; [reflexivity|].
        split; [erewrite upd_same by exact N; reflexivity|]. split; [|reflexivity].
        intros j D. apply upd_other. congruence. }
      assert (uinv u1) as I1 by (eapply urun_inv; [exact I|exact R1]).
      destruct (IH u1 i id v I1 A4 ND') as (k & u2 & R2 & B1 & B2 & B3 & B4 & B5 & B6).
      { intros s' y W. rewrite A6. apply (Q s'). right. exact W. }
      exists (1 + k)%nat, u2. rewrite repeat_app, urun_app, R1.
      split; [exact R2|]. split; [exact B1|]. split; [exact B2|]. split; [congruence|].
      split; [congruence|]. split.
      { intros j D. rewrite B5, A5 by exact D. reflexivity. }
      intros s' y O'. rewrite <- A6 in O'. rewrite (B6 s' y O'). unfold put_all. cbn [existsb].
      destruct (Nat.eqb_spec s' s) as [->|_]; [|reflexivity].
      assert (y = x) as -> by congruence. rewrite IR, !andb_false_r. reflexivity.
Qed.

Lemma publish_completes : forall u i id v, ureachable u -> u_lock u = None -> all_room u ->
  nth_error (u_thr u) i = Some (PubLock id v) ->
  exists k u', urun u (repeat (VStep i) k) = Some u' /\ u_lock u' = None /\
    u_log u' = UPubRet i :: UPub i id v :: u_log u /\ u_subs u' = u_subs u /\
    nth_error (u_thr u') i = Some UIdle /\
    (forall j, j <> i -> nth_error (u_thr u') j = nth_error (u_thr u) j) /\
    forall s x, In s (u_subs u) -> nth_error (u_objs u) s = Some x ->
      queue u' s = if (sb_lo x <=? id) && (id <=? sb_hi x) then [v] else [].
Proof.
  intros u i id v R L RM N. apply ureach_inv in R.
  assert (uexec u (VStep i) = Some (u_note (u_set (u_setlock u (Some i)) i
            (PubLoop id v (u_subs u))) (UPub i id v))) as X
    by (cbn [uexec]; rewrite N; cbn [ustep]; rewrite L; reflexivity).
  set (u1 := u_note (u_set (u_setlock u (Some i)) i (PubLoop id v (u_subs u))) (UPub i id v)) in X.
  pose proof (uexec_inv u _ _ R X) as I1.
  assert (nth_error (u_thr u1) i = Some (PubLoop id v (u_subs u))) as N1
    by (subst u1; ufields; erewrite upd_same by exact N; reflexivity).
  destruct (publish_loop (u_subs u) u1 i id v I1 N1 (c_nodup u R)) as
    (k & u2 & R2 & B1 & B2 & B3 & B4 & B5 & B6).
  { intros s x W O _. specialize (RM s W). unfold queue in RM. subst u1. cbn in O. now rewrite O in RM. }
  exists (S k), u2. split; [cbn [repeat urun]; rewrite X; exact R2|].
  split; [exact B2|]. split; [rewrite B4; reflexivity|]. split; [exact B3|].
  split; [exact B1|]. split.
  - intros j D. rewrite B5 by exact D. subst u1. ufields. apply upd_other. congruence.
  - intros s x W O. unfold queue. assert (nth_error (u_objs u1) s = Some x) as O1 by exact O.
    rewrite (B6 s x O1). unfold put_all.
    assert (existsb (Nat.eqb s) (u_subs u) = true) as -> by (apply existsb_in; exact W).
    assert (sb_q x = []) as Qx by (specialize (RM s W); unfold queue in RM; now rewrite O in RM).
    unfold in_range. cbn [andb]. rewrite Qx.
    destruct ((sb_lo x <=? id) && (id <=? sb_hi x)); [reflexivity|exact Qx].
Qed.

(** ** C57 *)
Lemma remove_exact : forall u i s store, ureachable u -> u_lock u = None ->
  nth_error (u_thr u) i = Some (SubRem s store) ->
  exists a b u', u_subs u = a ++ s :: b /\ ~ In s (a ++ b) /\
    uexec u (VStep i) = Some u' /\ u_subs u' = a ++ b /\
    u_objs u' = u_objs u /\ u_log u' = URet i s store :: u_log u /\
    nth_error (u_thr u') i = Some UIdle /\
    (forall j, j <> i -> nth_error (u_thr u') j = nth_error (u_thr u) j).
Proof.
  intros u i s store R L N. apply ureach_inv in R.
  assert (In s (u_subs u)) as W by (apply (c_reg u R); eexists _, _, _; split; [exact N|reflexivity]).
  destruct (in_split _ _ W) as (a & b & E).
  pose proof (c_nodup u R) as ND. rewrite E in ND. apply NoDup_remove_2 in ND.
  eexists a, b, _. split; [exact E|]. split; [exact ND|].
  split; [cbn [uexec]; rewrite N; cbn [ustep]; rewrite L; reflexivity|].
  ufields. rewrite E, remove_sub_first by (intros Q; apply ND, in_or_app; auto).
  split; [reflexivity|]. split; [reflexivity|]. split; [reflexivity|].
  split; [erewrite upd_same by exact N; reflexivity|]. intros j D. apply upd_other. congruence.
Qed.

Lemma registered_iff : forall u s, ureachable u ->
  (In s (u_subs u) <-> exists i p store, nth_error (u_thr u) i = Some p /\
                                         receiving p = Some (s, store)).
Proof. intros u s R. apply (c_reg u (ureach_inv u R)). Qed.
