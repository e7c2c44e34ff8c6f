(** * Invariants of the publish/subscribe manager, for every interleaving *)

Require Import List ZArith Bool Lia Permutation.
Require Import Verif.ModelTsm Verif.ModelUtsm Verif.SpecUtsm Verif.ProofsTsm.
Import ListNotations.
Open Scope Z_scope.

(** ** removeSubscriber *)

Lemma index_of_spec : forall s l i, index_of s l = Some i ->
  l = firstn i l ++ s :: skipn (S i) l /\ ~ In s (firstn i l) /\ (i < length l)%nat.
Proof.
  induction l as [|x l IH]; intros i H; cbn in H; [discriminate|].
  destruct (Nat.eqb_spec x s) as [->|D].
  - injection H as <-. cbn. repeat split; auto. lia.
  - destruct (index_of s l) as [k|] eqn:E; [|discriminate]. injection H as <-.
    destruct (IH k eq_refl) as (A & B & C). cbn [firstn skipn app length].
    split; [f_equal; exact A|]. split; [|lia].
    intros [Q|Q]; [congruence|contradiction].
Qed.

Lemma index_of_none : forall s l, index_of s l = None -> ~ In s l.
Proof.
  induction l as [|x l IH]; cbn; intros H; [tauto|].
  destruct (Nat.eqb_spec x s); [discriminate|].
  destruct (index_of s l); [discriminate|]. intros [Q|Q]; [congruence|]. now apply IH.
Qed.

Lemma remove_sub_split : forall s l i, index_of s l = Some i ->
  remove_sub s l = firstn i l ++ skipn (S i) l.
Proof.
  intros s l i H. unfold remove_sub. rewrite H.
  destruct (index_of_spec s l i H) as (A & _ & L). unfold shift.
  rewrite app_assoc, firstn_app.
  assert (length (firstn i l ++ skipn (S i) l) = length l - 1)%nat as E.
  { rewrite app_length, firstn_length, skipn_length. lia. }
  rewrite E, Nat.sub_diag, firstn_O, app_nil_r. apply firstn_all2. lia.
Qed.

(** Exactly the first occurrence goes, everything else stays in order. *)
Lemma remove_sub_first : forall s a b, ~ In s a -> remove_sub s (a ++ s :: b) = a ++ b.
Proof.
  intros s a b H.
  assert (index_of s (a ++ s :: b) = Some (length a)) as E.
  { induction a as [|x a IH]; cbn.
    - now rewrite Nat.eqb_refl.
    - destruct (Nat.eqb_spec x s); [exfalso; apply H; left; auto|].
      rewrite IH; [reflexivity|]. intros Q. apply H. right. exact Q. }
  rewrite (remove_sub_split _ _ _ E).
  rewrite firstn_app, Nat.sub_diag, firstn_O, app_nil_r, firstn_all. f_equal.
  rewrite skipn_app. replace (S (length a) - length a)%nat with 1%nat by lia.
  rewrite (skipn_all2 a) by lia. reflexivity.
Qed.

Lemma remove_sub_absent : forall s l, ~ In s l -> remove_sub s l = l.
Proof.
  intros s l H. unfold remove_sub. destruct (index_of s l) as [i|] eqn:E; [|reflexivity].
  exfalso. apply H. destruct (index_of_spec s l i E) as (A & _ & _). rewrite A.
  apply in_or_app. right. left. reflexivity.
Qed.

Lemma remove_sub_in : forall s l x, NoDup l ->
  (In x (remove_sub s l) <-> In x l /\ x <> s).
Proof.
  intros s l x N. destruct (in_dec Nat.eq_dec s l) as [H|H].
  - destruct (in_split _ _ H) as (a & b & ->). pose proof (NoDup_remove_2 _ _ _ N) as Q.
    rewrite remove_sub_first by (intros W; apply Q; apply in_or_app; auto).
    split.
    + intros W. split; [apply in_app_or in W; apply in_or_app; cbn; tauto|].
      intros ->. contradiction.
    + intros [W D]. apply in_app_or in W. apply in_or_app. cbn in W.
      destruct W as [W|[W|W]]; auto. congruence.
  - rewrite remove_sub_absent by assumption. split; [|tauto].
    intros W. split; [exact W|]. intros ->. contradiction.
Qed.

Lemma remove_sub_nodup : forall s l, NoDup l -> NoDup (remove_sub s l).
Proof.
  intros s l N. destruct (in_dec Nat.eq_dec s l) as [H|H].
  - destruct (in_split _ _ H) as (a & b & ->). pose proof (NoDup_remove_2 _ _ _ N) as Q.
    rewrite remove_sub_first by (intros W; apply Q; apply in_or_app; auto).
    now apply NoDup_remove_1 in N.
  - now rewrite remove_sub_absent.
Qed.

(** ** Invariants *)

(** The goroutine holds Manager.mutex. *)
Definition pub_holds (p : upc) : bool :=
  match p with
  | PubLoop _ _ _ | PubSub _ _ _ _ | PubSend _ _ _ _ | PubUnlock _ _ _ _ => true
  | _ => false
  end.

(** The goroutine holds the mutex of subscriber [s]. *)
Definition sub_held (p : upc) : option nat :=
  match p with PubSend _ _ s _ | PubUnlock _ _ s _ => Some s | _ => None end.

(** The publication in progress and the subscribers still to be served. *)
Definition todo (p : upc) : option (Z * Z * list nat) :=
  match p with
  | PubLoop id v rest => Some (id, v, rest)
  | PubSub id v s rest | PubSend id v s rest => Some (id, v, s :: rest)
  | PubUnlock id v s rest => Some (id, v, rest)
  | _ => None
  end.

(** The subscriber the publication has reached. *)
Definition at_sub (p : upc) : option (Z * nat) :=
  match p with
  | PubSub id _ s _ | PubSend id _ s _ => Some (id, s)
  | _ => None
  end.

Definition owned (p : upc) : list nat :=
  match p with
  | SubReg _ _ s => [s]
  | SubTime s _ | SubWait s _ | SubRem s _ => [s]
  | _ => []
  end.

Definition cur (L : option nat) (thr : list upc) : option (Z * Z * list nat) :=
  match L with
  | Some i => match nth_error thr i with Some p => todo p | None => None end
  | None => None
  end.

Definition current (u : usys) : option (Z * Z * list nat) := cur (u_lock u) (u_thr u).

(** What the publication in progress will still put into the queue of [s]. *)
Definition pend (c : option (Z * Z * list nat)) (s : nat) (x : sub) : list Z :=
  match c with
  | Some (id, v, l) => if existsb (Nat.eqb s) l && in_range x id then [v] else []
  | None => []
  end.

Fixpoint returns_ok (log : list uevent) : Prop :=
  match log with
  | [] => True
  | URet i s store :: t =>
      (exists lo hi rest, meant_for s t = Some (lo, hi, store ++ rest) /\
                          (length rest <= cap_q)%nat) /\ returns_ok t
  | _ :: t => returns_ok t
  end.

Record uinv (u : usys) : Prop := {
  a_lock : forall i p, nth_error (u_thr u) i = Some p ->
             (pub_holds p = true <-> u_lock u = Some i);
  a_held : forall i, u_lock u = Some i -> exists p, nth_error (u_thr u) i = Some p;
  b_lock : forall s x, nth_error (u_objs u) s = Some x -> forall i,
             (sb_lock x = Some i <->
              exists p, nth_error (u_thr u) i = Some p /\ sub_held p = Some s);
  c_own : forall i j p q s, nth_error (u_thr u) i = Some p -> nth_error (u_thr u) j = Some q ->
             In s (owned p) -> In s (owned q) -> i = j;
  c_reg : forall s, In s (u_subs u) <->
             exists i p store, nth_error (u_thr u) i = Some p /\ receiving p = Some (s, store);
  c_fresh : forall i lo hi s x, nth_error (u_thr u) i = Some (SubReg lo hi s) ->
             nth_error (u_objs u) s = Some x -> sb_q x = [] /\ sb_lo x = lo /\ sb_hi x = hi;
  c_nodup : NoDup (u_subs u);
  c_range : forall i p s, nth_error (u_thr u) i = Some p -> In s (owned p) ->
             (s < length (u_objs u))%nat;
  c_log : forall s, meant_for s (u_log u) <> None -> (s < length (u_objs u))%nat /\
             forall i lo hi, nth_error (u_thr u) i <> Some (SubReg lo hi s);
  d_todo : forall i p id v l, nth_error (u_thr u) i = Some p -> todo p = Some (id, v, l) ->
             exists pre, u_subs u = pre ++ l;
  d_held : forall i p s, nth_error (u_thr u) i = Some p -> sub_held p = Some s ->
             In s (u_subs u);
  d_at : forall i p id s x, nth_error (u_thr u) i = Some p -> at_sub p = Some (id, s) ->
             nth_error (u_objs u) s = Some x -> in_range x id = true;
  e_sub : forall i p s store, nth_error (u_thr u) i = Some p -> receiving p = Some (s, store) ->
             exists x, nth_error (u_objs u) s = Some x /\
               meant_for s (u_log u) =
                 Some (sb_lo x, sb_hi x, store ++ sb_q x ++ pend (current u) s x);
  f_cap : forall s x, nth_error (u_objs u) s = Some x -> (length (sb_q x) <= cap_q)%nat;
  g_ret : returns_ok (u_log u)
}.

Lemma uinit_inv : uinv uinit.
Proof.
  constructor; cbn [uinit u_thr u_lock u_objs u_subs u_log meant_for returns_ok].
  - intros [|i]; discriminate.
  - discriminate.
  - intros [|s]; discriminate.
  - intros [|i]; discriminate.
  - intros s. split; [intros []|]. intros ([|i] & p & st & H & _); discriminate.
  - intros [|i]; discriminate.
  - constructor.
  - intros [|i]; discriminate.
  - intros s H. now destruct H.
  - intros [|i]; discriminate.
  - intros [|i]; discriminate.
  - intros [|i]; discriminate.
  - intros [|i]; discriminate.
  - intros [|s]; discriminate.
  - exact I.
Qed.

Ltac uexec_cases H :=
  unfold uexec, ustep in H;
  repeat match type of H with
         | (if ?b then _ else _) = Some _ => destruct b eqn:?; try discriminate H
         | match ?x with _ => _ end = Some _ => destruct x eqn:?; try discriminate H
         end;
  injection H as <-;
  try match goal with N : nth_error (u_thr ?s0) _ = Some _ |- _ =>
        is_var s0; rename N into Hth end;
  try match goal with N : nth_error (u_objs ?s0) _ = Some _ |- _ =>
        is_var s0; rename N into Hob end;
  try match goal with N : u_lock _ = _ |- _ => rename N into Hlk end.

Ltac ufields :=
  cbn [u_lock u_subs u_objs u_thr u_log u_set u_setlock u_setsubs u_setobjs u_setthr u_note] in *.

Lemma uspawn_inv : forall (l : list upc) i p, nth_error (l ++ [UIdle]) i = Some p ->
  nth_error l i = Some p \/ (i = length l /\ p = UIdle).
Proof.
  intros l i p K. destruct (Nat.lt_ge_cases i (length l)) as [Q|Q].
  - rewrite nth_error_app1 in K by assumption. left. exact K.
  - rewrite nth_error_app2 in K by assumption. right.
    destruct (i - length l)%nat as [|[|]] eqn:M; cbn in K; try discriminate.
    split; [lia|congruence].
Qed.

Lemma ulock_keep : forall thr i a p' (L : option nat),
  (forall j p, nth_error thr j = Some p -> (pub_holds p = true <-> L = Some j)) ->
  nth_error thr i = Some a -> pub_holds a = pub_holds p' ->
  forall j p, nth_error (upd thr i p') j = Some p -> (pub_holds p = true <-> L = Some j).
Proof.
  intros thr i a p' L H N E j p K. apply upd_inv in K.
  destruct K as [[-> ->]|[_ K]]; [rewrite <- E|]; apply H; assumption.
Qed.

Lemma uexec_lock : forall u a u', uinv u -> uexec u a = Some u' ->
  forall i p, nth_error (u_thr u') i = Some p -> (pub_holds p = true <-> u_lock u' = Some i).
Proof.
  intros u a u' I H.
  uexec_cases H; pose proof (a_lock u I) as IL; ufields; try exact IL;
    try (eapply ulock_keep; [exact IL|exact Hth|reflexivity]).
  - intros i p K. apply uspawn_inv in K. destruct K as [K|[-> ->]]; [apply IL; exact K|].
    split; [discriminate|]. intros L. destruct (a_held u I _ L) as [q Hq].
    assert (length (u_thr u) < length (u_thr u))%nat by (apply nth_error_Some; congruence). lia.
  - eapply ulock_keep; [exact IL|exact Hth|destruct o; reflexivity].
  - intros j q K. apply upd_inv in K. destruct K as [[-> ->]|[D K]].
    + split; reflexivity.
    + pose proof (IL _ _ K) as E. split; intros Q; [apply E in Q|]; congruence.
  - intros j q K. apply upd_inv in K. destruct K as [[-> ->]|[D K]].
    + split; discriminate.
    + pose proof (IL _ _ K) as E.
      assert (u_lock u = Some i) as E3 by (apply (IL _ _ Hth); reflexivity).
      split; [|discriminate]. intros Q. apply E in Q. congruence.
Qed.

Lemma uheld_keep : forall (thr : list upc) i p' (L : option nat),
  (forall j, L = Some j -> exists p, nth_error thr j = Some p) ->
  forall j, L = Some j -> exists p, nth_error (upd thr i p') j = Some p.
Proof.
  intros thr i p' L H j E. destruct (H j E) as [p Hp].
  destruct (nth_error (upd thr i p') j) eqn:N; [eauto|].
  apply nth_error_None in N. rewrite upd_length in N.
  assert (j < length thr)%nat by (apply nth_error_Some; congruence). lia.
Qed.

Lemma uexec_held : forall u a u', uinv u -> uexec u a = Some u' ->
  forall i, u_lock u' = Some i -> exists p, nth_error (u_thr u') i = Some p.
Proof.
  intros u a u' I H.
  uexec_cases H; pose proof (a_held u I) as IL; ufields; try exact IL;
    try (apply uheld_keep; exact IL).
  - intros i E. destruct (IL i E) as [p Hp]. exists p.
    rewrite nth_error_app1; [exact Hp|]. apply nth_error_Some. congruence.
  - intros j E. injection E as <-. exists (PubLoop id v (u_subs u)).
    eapply upd_same; exact Hth.
  - discriminate.
Qed.

(** The holder of a subscriber's mutex also holds the manager's. *)
Lemma sub_held_pub : forall p s, sub_held p = Some s -> pub_holds p = true.
Proof. intros p s H. destruct p; cbn in *; congruence. Qed.

Definition lock_ok (thr : list upc) (objs : list sub) : Prop :=
  forall s x, nth_error objs s = Some x -> forall j,
    (sb_lock x = Some j <-> exists p, nth_error thr j = Some p /\ sub_held p = Some s).

(** A goroutine moves and the mutexes stay. *)
Lemma lock_move : forall thr objs i a p', lock_ok thr objs ->
  nth_error thr i = Some a -> sub_held a = sub_held p' -> lock_ok (upd thr i p') objs.
Proof.
  intros thr objs i a p' H N E s x O j. rewrite (H s x O j). split.
  - intros (p & Np & Hp). destruct (Nat.eq_dec i j) as [<-|D].
    + exists p'. split; [eapply upd_same; exact N|]. congruence.
    + exists p. rewrite upd_other by assumption. auto.
  - intros (p & Np & Hp). apply upd_inv in Np. destruct Np as [[-> ->]|[D Np]].
    + exists a. split; [exact N|congruence].
    + eauto.
Qed.

(** Subscriber objects change, their mutexes stay. *)
Lemma lock_objs : forall thr objs s x y, lock_ok thr objs ->
  nth_error objs s = Some x -> sb_lock y = sb_lock x -> lock_ok thr (upd objs s y).
Proof.
  intros thr objs s x y H N E s' x' O j. apply upd_inv in O.
  destruct O as [[-> ->]|[D O]]; [rewrite E|]; apply H; assumption.
Qed.

Lemma lock_new : forall thr objs lo hi, lock_ok thr objs ->
  (forall i p s, nth_error thr i = Some p -> sub_held p = Some s -> (s < length objs)%nat) ->
  lock_ok thr (objs ++ [mkSub lo hi [] None]).
Proof.
  intros thr objs lo hi H R s x O j.
  destruct (Nat.lt_ge_cases s (length objs)) as [Q|Q].
  - rewrite nth_error_app1 in O by exact Q. apply H. exact O.
  - rewrite nth_error_app2 in O by exact Q.
    destruct (s - length objs)%nat as [|[|]] eqn:M; cbn in O; try discriminate.
    injection O as <-. cbn. split; [discriminate|]. intros (p & Np & Hp).
    apply (R _ _ _ Np) in Hp. lia.
Qed.

Lemma held_range : forall u i p s, uinv u -> nth_error (u_thr u) i = Some p ->
  sub_held p = Some s -> (s < length (u_objs u))%nat.
Proof.
  intros u i p s I N H. pose proof (d_held u I i p s N H) as Q.
  apply (c_reg u I) in Q. destruct Q as (j & q & st & Nj & Rj).
  eapply (c_range u I); [exact Nj|]. destruct q; cbn in *; try discriminate;
    injection Rj as -> _; auto.
Qed.

(** At most one goroutine holds subscriber mutexes. *)
Lemma one_held : forall u i p j q, uinv u -> nth_error (u_thr u) i = Some p ->
  pub_holds p = true -> nth_error (u_thr u) j = Some q -> pub_holds q = true -> i = j.
Proof.
  intros u i p j q I N P M Q. apply (a_lock u I _ _ N) in P. apply (a_lock u I _ _ M) in Q.
  congruence.
Qed.

Lemma uexec_sublock : forall u a u', uinv u -> uexec u a = Some u' ->
  lock_ok (u_thr u') (u_objs u').
Proof.
  intros u a u' I H.
  uexec_cases H; pose proof (b_lock u I : lock_ok _ _) as B; ufields; try exact B;
    try (eapply lock_move; [exact B|exact Hth|reflexivity]).
  - intros s x O j. rewrite (B s x O j). split.
    + intros (p & Np & Hp). exists p. split; [|exact Hp].
      rewrite nth_error_app1; [exact Np|]. apply nth_error_Some. congruence.
    + intros (p & Np & Hp). apply uspawn_inv in Np.
      destruct Np as [Np|[-> ->]]; [eauto|discriminate].
  - eapply lock_move; [exact B|exact Hth|destruct o; reflexivity].
  - (* lock *)
    intros s' x' O j. apply upd_inv in O. destruct O as [[-> ->]|[D O]].
    + cbn [sb_lock]. split.
      * intros Q. injection Q as <-. eexists. split; [eapply upd_same; exact Hth|reflexivity].
      * intros (p0 & Np & Hp). apply upd_inv in Np. destruct Np as [[-> ->]|[D Np]];
          [reflexivity|]. exfalso. apply D.
        eapply one_held; [exact I|exact Np|eapply sub_held_pub; exact Hp|exact Hth|reflexivity].
    + rewrite (B s' x' O j). split.
      * intros (q & Nq & Hq). exists q. split; [|exact Hq]. rewrite upd_other; [exact Nq|].
        intros ->. rewrite Hth in Nq. injection Nq as <-. discriminate.
      * intros (q & Nq & Hq). apply upd_inv in Nq. destruct Nq as [[-> ->]|[D2 Nq]]; [|eauto].
        cbn in Hq. congruence.
  - (* send *)
    eapply lock_move; [eapply lock_objs; [exact B|exact Hob|reflexivity]|exact Hth|reflexivity].
  - (* unlock *)
    intros s' x' O j. apply upd_inv in O. destruct O as [[-> ->]|[D O]].
    + cbn [sb_lock]. split; [discriminate|].
      intros (q & Nq & Hq). apply upd_inv in Nq. destruct Nq as [[-> ->]|[D Nq]];
        [discriminate|]. exfalso. apply D.
      eapply one_held; [exact I|exact Nq|eapply sub_held_pub; exact Hq|exact Hth|reflexivity].
    + rewrite (B s' x' O j). split.
      * intros (q & Nq & Hq). exists q. split; [|exact Hq]. rewrite upd_other; [exact Nq|].
        intros ->. rewrite Hth in Nq. injection Nq as <-. cbn in Hq. congruence.
      * intros (q & Nq & Hq). apply upd_inv in Nq. destruct Nq as [[-> ->]|[D2 Nq]]; [|eauto].
        discriminate.
  - (* new *)
    eapply lock_move; [apply lock_new; [exact B|]|exact Hth|reflexivity].
    intros. eapply held_range; eassumption.
  - (* receive *)
    eapply lock_move; [eapply lock_objs; [exact B|exact Hob|reflexivity]|exact Hth|reflexivity].
Qed.

(** Ownership of subscriber objects. *)
Definition own_ok (thr : list upc) : Prop :=
  forall i j p q s, nth_error thr i = Some p -> nth_error thr j = Some q ->
    In s (owned p) -> In s (owned q) -> i = j.

Lemma own_move : forall thr i a p', own_ok thr -> nth_error thr i = Some a ->
  (forall s, In s (owned p') -> In s (owned a)) -> own_ok (upd thr i p').
Proof.
  intros thr i a p' H N E j k p q s Nj Nk Pj Pk.
  apply upd_inv in Nj. apply upd_inv in Nk.
  destruct Nj as [[-> ->]|[D1 Nj]], Nk as [[-> ->]|[D2 Nk]]; eauto.
Qed.

Lemma uexec_own : forall u a u', uinv u -> uexec u a = Some u' -> own_ok (u_thr u').
Proof.
  intros u a u' I H.
  uexec_cases H; pose proof (c_own u I : own_ok _) as O; ufields; try exact O;
    try (eapply own_move; [exact O|exact Hth|cbn; tauto]).
  - intros j k p q s Nj Nk Pj Pk. apply uspawn_inv in Nj. apply uspawn_inv in Nk.
    destruct Nj as [Nj|[-> ->]], Nk as [Nk|[-> ->]]; try (cbn in *; tauto). eauto.
  - eapply own_move; [exact O|exact Hth|destruct o; cbn; tauto].
  - intros j k p1 q s Nj Nk Pj Pk. apply upd_inv in Nj. apply upd_inv in Nk.
    destruct Nj as [[-> ->]|[D1 Nj]], Nk as [[-> ->]|[D2 Nk]]; eauto.
    + cbn in Pj. destruct Pj as [<-|[]]. apply (c_range u I _ _ _ Nk) in Pk. lia.
    + cbn in Pk. destruct Pk as [<-|[]]. apply (c_range u I _ _ _ Nj) in Pj. lia.
Qed.

Lemma uexec_range : forall u a u', uinv u -> uexec u a = Some u' ->
  forall i p s, nth_error (u_thr u') i = Some p -> In s (owned p) ->
    (s < length (u_objs u'))%nat.
Proof.
  intros u a u' I H i9 p9 s9 N9 P9.
  pose proof (fun p => c_range u I i9 p s9) as R.
  uexec_cases H; ufields; rewrite ?upd_length, ?app_length; cbn [length];
    try (eapply R; [exact N9|exact P9]);
    try (apply upd_inv in N9; destruct N9 as [[-> ->]|[D N9]];
         [try (cbn in P9; tauto); try (eapply R; [exact Hth|exact P9])
         |try (eapply R; [exact N9|exact P9])]).
  - apply uspawn_inv in N9. destruct N9 as [N9|[-> ->]]; [eauto|destruct P9].
  - destruct o; destruct P9.
  - destruct P9 as [<-|[]]. lia.
  - specialize (R _ N9 P9). lia.
Qed.

(** Registration. *)
Definition reg_ok (thr : list upc) (subs : list nat) : Prop :=
  forall s, In s subs <->
    exists i p store, nth_error thr i = Some p /\ receiving p = Some (s, store).

Lemma reg_move : forall thr subs i a p', reg_ok thr subs -> nth_error thr i = Some a ->
  (forall s, (exists st, receiving a = Some (s, st)) <-> (exists st, receiving p' = Some (s, st))) ->
  reg_ok (upd thr i p') subs.
Proof.
  intros thr subs i a p' H N E s. rewrite (H s). split.
  - intros (j & p & st & Np & Rp). destruct (Nat.eq_dec i j) as [<-|D].
    + replace p with a in Rp by congruence. destruct (proj1 (E s)) as [st' R']; [eauto|].
      exists i, p', st'. split; [eapply upd_same; exact N|exact R'].
    + exists j, p, st. rewrite upd_other by assumption. auto.
  - intros (j & p & st & Np & Rp). apply upd_inv in Np. destruct Np as [[-> ->]|[D Np]].
    + destruct (proj2 (E s)) as [st' R']; [eauto|]. eauto 6.
    + eauto 6.
Qed.

Ltac same_receiving := intros ?; cbn; split; intros [? ?]; solve [congruence | eexists; f_equal; congruence | eauto].

Lemma recv_owned : forall p s st, receiving p = Some (s, st) -> In s (owned p).
Proof. intros p s st H. destruct p; cbn in *; try discriminate; injection H as -> _; auto. Qed.

Lemma uexec_reg : forall u a u', uinv u -> uexec u a = Some u' ->
  reg_ok (u_thr u') (u_subs u').
Proof.
  intros u a u' I H.
  uexec_cases H; pose proof (c_reg u I : reg_ok _ _) as G; ufields; try exact G;
    try (eapply reg_move; [exact G|exact Hth|];
         intros s9; cbn; split; intros [st9 E9]; try discriminate;
         injection E9 as <- _; eexists; reflexivity).
  - intros s. rewrite (G s). split.
    + intros (i & p & st & N & R). exists i, p, st. split; [|exact R].
      rewrite nth_error_app1; [exact N|]. apply nth_error_Some. congruence.
    + intros (i & p & st & N & R). apply uspawn_inv in N.
      destruct N as [N|[-> ->]]; [eauto 6|discriminate].
  - eapply reg_move; [exact G|exact Hth|]. destruct o; cbn; intros s9; split; intros [? ?]; discriminate.
  - (* register *)
    intros s9. rewrite in_app_iff, (G s9). cbn [In]. split.
    + intros [(j & q & st & N & R)|[<-|[]]].
      * exists j, q, st. split; [|exact R]. rewrite upd_other; [exact N|].
        intros ->. rewrite Hth in N. injection N as <-. discriminate.
      * exists i, (SubTime s []), []. split; [eapply upd_same; exact Hth|reflexivity].
    + intros (j & q & st & N & R). apply upd_inv in N. destruct N as [[-> ->]|[D N]].
      * cbn in R. injection R as -> _. auto.
      * left. eauto 6.
  - (* remove *)
    intros s9. rewrite (remove_sub_in s (u_subs u) s9 (c_nodup u I)), (G s9). split.
    + intros [(j & q & st & N & R) D]. exists j, q, st. split; [|exact R].
      rewrite upd_other; [exact N|]. intros ->. rewrite Hth in N. injection N as <-.
      cbn in R. congruence.
    + intros (j & q & st & N & R). apply upd_inv in N. destruct N as [[-> ->]|[D N]];
        [discriminate|]. split; [eauto 6|]. intros ->. apply D.
      eapply (c_own u I); [exact N|exact Hth|eapply recv_owned; exact R|cbn; auto].
Qed.

Lemma uexec_nodup : forall u a u', uinv u -> uexec u a = Some u' -> NoDup (u_subs u').
Proof.
  intros u a u' I H.
  uexec_cases H; pose proof (c_nodup u I) as N; ufields; try exact N.
  - apply NoDup_rev in N. rewrite <- (rev_involutive (u_subs u ++ [s])).
    apply NoDup_rev. rewrite rev_app_distr. cbn. constructor; [|exact N].
    rewrite <- in_rev. intros Q. apply (c_reg u I) in Q.
    destruct Q as (j & q & st & Nj & Rj).
    assert (i = j) as <-
      by (eapply (c_own u I); [exact Hth|exact Nj|cbn; auto|eapply recv_owned; exact Rj]).
    rewrite Hth in Nj. injection Nj as <-. discriminate.
  - now apply remove_sub_nodup.
Qed.

Lemma meant_new : forall i s lo hi s' t, meant_for s' (USub i s lo hi :: t) =
  if Nat.eqb s s' then Some (lo, hi, []) else meant_for s' t.
Proof. reflexivity. Qed.

Lemma meant_pub : forall i id v s t, meant_for s (UPub i id v :: t) = None <->
  meant_for s t = None.
Proof.
  intros. cbn. destruct (meant_for s t) as [[[lo hi] l]|]; [|tauto].
  destruct ((lo <=? id) && (id <=? hi)); split; discriminate.
Qed.

Lemma uexec_clog : forall u a u', uinv u -> uexec u a = Some u' ->
  forall s, meant_for s (u_log u') <> None -> (s < length (u_objs u'))%nat /\
             forall i lo hi, nth_error (u_thr u') i <> Some (SubReg lo hi s).
Proof.
  intros u a u' I H s9 M9.
  pose proof (c_log u I s9) as C.
  assert (forall i p', (forall lo hi, p' <> SubReg lo hi s9) ->
    (forall j lo hi, nth_error (u_thr u) j <> Some (SubReg lo hi s9)) ->
    forall j lo hi, nth_error (upd (u_thr u) i p') j <> Some (SubReg lo hi s9)) as Mv.
  { intros i p' D Q j lo hi W. apply upd_inv in W.
    destruct W as [[_ W]|[_ W]]; [now apply (D lo hi)|]. exact (Q _ _ _ W). }
  uexec_cases H; ufields; rewrite ?upd_length, ?app_length; cbn [length];
    try (cbn [meant_for] in M9; destruct (C M9) as [C1 C2]; split; [exact C1|];
         apply Mv; [discriminate|exact C2]).
  - destruct (C M9) as [C1 C2]. split; [exact C1|]. intros i lo9 hi9 W. apply uspawn_inv in W.
    destruct W as [W|[_ W]]; [exact (C2 _ _ _ W)|discriminate].
  - destruct (C M9) as [C1 C2]. split; [exact C1|]. apply Mv; [destruct o; discriminate|exact C2].
  - rewrite meant_pub in M9. destruct (C M9) as [C1 C2]. split; [exact C1|].
    apply Mv; [discriminate|exact C2].
  - destruct (C M9) as [C1 C2]. split; [lia|]. apply Mv; [|exact C2].
    intros lo9 hi9 W. injection W as _ _ W. lia.
  - rewrite meant_new in M9. destruct (Nat.eqb_spec s s9) as [->|D].
    + split; [eapply (c_range u I); [exact Hth|cbn; auto]|].
      intros j lo9 hi9 W. apply upd_inv in W. destruct W as [[_ W]|[D W]]; [discriminate|].
      apply D. eapply (c_own u I); [exact W|exact Hth|cbn; auto|cbn; auto].
    + destruct (C M9) as [C1 C2]. split; [exact C1|]. apply Mv; [discriminate|exact C2].
Qed.

Lemma uexec_fresh : forall u a u', uinv u -> uexec u a = Some u' ->
  forall i lo hi s x, nth_error (u_thr u') i = Some (SubReg lo hi s) ->
             nth_error (u_objs u') s = Some x -> sb_q x = [] /\ sb_lo x = lo /\ sb_hi x = hi.
Proof.
  intros u a u' I H i9 lo9 hi9 s9 x9 N9 O9.
  pose proof (c_fresh u I i9 lo9 hi9 s9) as C.
  uexec_cases H; ufields;
    try (eapply C; [exact N9|exact O9]);
    try (apply upd_inv in N9; destruct N9 as [[-> Q]|[D N9]];
         [try discriminate Q|try (eapply C; [exact N9|exact O9])]).
  - apply uspawn_inv in N9. destruct N9 as [N9|[_ N9]]; [eauto|discriminate].
  - destruct o; discriminate.
  - apply upd_inv in O9. destruct O9 as [[-> ->]|[_ O9]]; [exact (C _ N9 Hob)|eauto].
  - apply upd_inv in O9. destruct O9 as [[-> ->]|[_ O9]]; [|eauto]. exfalso.
    (* the publisher holds a registered subscriber *)
    assert (In s (u_subs u)) as W by (eapply (d_held u I); [exact Hth|reflexivity]).
    apply (c_reg u I) in W. destruct W as (j & q & st & Nj & Rj).
    assert (i9 = j) as <-
      by (eapply (c_own u I); [exact N9|exact Nj|cbn; auto|eapply recv_owned; exact Rj]).
    rewrite N9 in Nj. injection Nj as <-. discriminate.
  - apply upd_inv in O9. destruct O9 as [[-> ->]|[_ O9]]; [exact (C _ N9 Hob)|eauto].
  - injection Q as -> -> ->. rewrite nth_error_app2 in O9 by lia. rewrite Nat.sub_diag in O9.
    cbn in O9. injection O9 as <-. auto.
  - assert (s9 < length (u_objs u))%nat as L
      by (eapply (c_range u I); [exact N9|cbn; auto]).
    rewrite nth_error_app1 in O9 by exact L. eauto.
  - apply upd_inv in O9. destruct O9 as [[-> ->]|[_ O9]]; [|eauto]. exfalso. apply D.
    eapply (c_own u I); [exact N9|exact Hth|cbn; auto|cbn; auto].
Qed.

Lemma todo_holds : forall p x, todo p = Some x -> pub_holds p = true.
Proof. intros p x H. destruct p; cbn in *; congruence. Qed.

Lemma free_no_holder : forall u i p, uinv u -> u_lock u = None ->
  nth_error (u_thr u) i = Some p -> pub_holds p = false.
Proof.
  intros u i p I L N. pose proof (a_lock u I i p N) as E.
  destruct (pub_holds p); [|reflexivity]. destruct E as [E _]. specialize (E eq_refl). congruence.
Qed.

Lemma uexec_todo : forall u a u', uinv u -> uexec u a = Some u' ->
  forall i p id v l, nth_error (u_thr u') i = Some p -> todo p = Some (id, v, l) ->
             exists pre, u_subs u' = pre ++ l.
Proof.
  intros u a u' I H i9 p9 id9 v9 l9 N9 T9.
  pose proof (fun p => d_todo u I i9 p id9 v9 l9) as C.
  uexec_cases H; ufields;
    try (eapply C; [exact N9|exact T9]);
    try (apply upd_inv in N9; destruct N9 as [[-> ->]|[D N9]];
         [try discriminate T9; try (eapply C; [exact Hth|exact T9])
         |try (eapply C; [exact N9|exact T9])]).
  - apply uspawn_inv in N9. destruct N9 as [N9|[_ ->]]; [eauto|discriminate].
  - destruct o; discriminate.
  - cbn in T9. injection T9 as _ _ <-. exists []. reflexivity.
  - cbn in T9. injection T9 as <- <- <-.
    destruct (d_todo u I _ _ _ _ _ Hth eq_refl) as [pre E]. exists (pre ++ [n]).
    rewrite <- app_assoc. exact E.
  - cbn in T9. injection T9 as <- <- <-.
    destruct (d_todo u I _ _ _ _ _ Hth eq_refl) as [pre E]. exists (pre ++ [s]).
    rewrite <- app_assoc. exact E.
  - pose proof (free_no_holder u i9 p9 I Hlk N9) as Q. rewrite (todo_holds _ _ T9) in Q.
    discriminate.
  - pose proof (free_no_holder u i9 p9 I Hlk N9) as Q. rewrite (todo_holds _ _ T9) in Q.
    discriminate.
Qed.

Lemma uexec_dheld : forall u a u', uinv u -> uexec u a = Some u' ->
  forall i p s, nth_error (u_thr u') i = Some p -> sub_held p = Some s -> In s (u_subs u').
Proof.
  intros u a u' I H i9 p9 s9 N9 T9.
  pose proof (fun p => d_held u I i9 p s9) as C.
  uexec_cases H; ufields;
    try (eapply C; [exact N9|exact T9]);
    try (apply upd_inv in N9; destruct N9 as [[-> ->]|[D N9]];
         [try discriminate T9; try (eapply C; [exact Hth|exact T9])
         |try (eapply C; [exact N9|exact T9])]).
  - apply uspawn_inv in N9. destruct N9 as [N9|[_ ->]]; [eauto|discriminate].
  - destruct o; discriminate.
  - cbn in T9. injection T9 as <-.
    destruct (d_todo u I _ _ _ _ _ Hth eq_refl) as [pre E]. rewrite E. apply in_or_app.
    right. left. reflexivity.
  - pose proof (free_no_holder u i9 p9 I Hlk N9) as Q. rewrite (sub_held_pub _ _ T9) in Q.
    discriminate.
  - pose proof (free_no_holder u i9 p9 I Hlk N9) as Q. rewrite (sub_held_pub _ _ T9) in Q.
    discriminate.
Qed.

(** The range of a subscriber never changes. *)
Definition same_range (x y : sub) : Prop := sb_lo y = sb_lo x /\ sb_hi y = sb_hi x.

Lemma uexec_objs : forall u a u' s y, uexec u a = Some u' -> nth_error (u_objs u') s = Some y ->
  (exists x, nth_error (u_objs u) s = Some x /\ same_range x y) \/ s = length (u_objs u).
Proof.
  intros u a u' s9 y9 H O9.
  uexec_cases H; ufields; try (left; exists y9; split; [exact O9|split; reflexivity]);
    try (apply upd_inv in O9; destruct O9 as [[-> ->]|[D O9]];
         [left; eexists; split; [exact Hob|split; reflexivity]
         |left; exists y9; split; [exact O9|split; reflexivity]]).
  destruct (Nat.lt_ge_cases s9 (length (u_objs u))) as [Q|Q].
  - rewrite nth_error_app1 in O9 by exact Q. left. exists y9. split; [exact O9|split; reflexivity].
  - right. assert (s9 < length (u_objs u ++ [mkSub lo hi [] None]))%nat as L
      by (apply nth_error_Some; congruence).
    rewrite app_length in L. cbn in L. lia.
Qed.

Lemma range_same : forall x y id, same_range x y -> in_range y id = in_range x id.
Proof. intros x y id [A B]. unfold in_range. now rewrite A, B. Qed.

Lemma at_in_subs : forall u i p id s, uinv u -> nth_error (u_thr u) i = Some p ->
  at_sub p = Some (id, s) -> In s (u_subs u).
Proof.
  intros u i p id s I N A.
  assert (exists v rest, todo p = Some (id, v, s :: rest)) as (v & rest & T).
  { destruct p; cbn in *; try discriminate; injection A as -> ->; eauto. }
  destruct (d_todo u I _ _ _ _ _ N T) as [pre E]. rewrite E. apply in_or_app. right. left.
  reflexivity.
Qed.

Lemma sub_in_range : forall u s, uinv u -> In s (u_subs u) -> (s < length (u_objs u))%nat.
Proof.
  intros u s I Q. apply (c_reg u I) in Q. destruct Q as (j & q & st & Nj & Rj).
  eapply (c_range u I); [exact Nj|eapply recv_owned; exact Rj].
Qed.

Lemma uexec_at : forall u a u', uinv u -> uexec u a = Some u' ->
  forall i p id s x, nth_error (u_thr u') i = Some p -> at_sub p = Some (id, s) ->
             nth_error (u_objs u') s = Some x -> in_range x id = true.
Proof.
  intros u a u' I H i9 p9 id9 s9 x9 N9 T9 O9.
  destruct (uexec_objs u a u' s9 x9 H O9) as [(x & Ox & SR)|E9].
  - rewrite (range_same _ _ _ SR). clear O9.
    pose proof (fun p N T => d_at u I i9 p id9 s9 x N T Ox) as C.
    uexec_cases H; ufields;
    try (eapply C; [exact N9|exact T9]);
    try (apply upd_inv in N9; destruct N9 as [[-> ->]|[D N9]];
         [try discriminate T9; try (eapply C; [exact Hth|exact T9])
         |try (eapply C; [exact N9|exact T9])]).
    + apply uspawn_inv in N9. destruct N9 as [N9|[_ ->]]; [eauto|discriminate].
    + destruct o; discriminate.
    + cbn in T9. injection T9 as <- <-. congruence.
  - exfalso. subst s9.
    assert (In (length (u_objs u)) (u_subs u)) as Q; [|apply (sub_in_range u _ I) in Q; lia].
    pose proof (fun p N T => at_in_subs u i9 p id9 (length (u_objs u)) I N T) as C. clear O9.
    uexec_cases H; ufields;
    try (eapply C; [exact N9|exact T9]);
    try (apply upd_inv in N9; destruct N9 as [[-> ->]|[D N9]];
         [try discriminate T9; try (eapply C; [exact Hth|exact T9])
         |try (eapply C; [exact N9|exact T9])]).
    + apply uspawn_inv in N9. destruct N9 as [N9|[_ ->]]; [eauto|discriminate].
    + destruct o; discriminate.
    + cbn in T9. injection T9 as <- <-.
      destruct (d_todo u I _ _ _ _ _ Hth eq_refl) as [pre E]. rewrite E. apply in_or_app.
      right. left. reflexivity.
Qed.

Lemma uexec_cap : forall u a u', uinv u -> uexec u a = Some u' ->
  forall s x, nth_error (u_objs u') s = Some x -> (length (sb_q x) <= cap_q)%nat.
Proof.
  intros u a u' I H s9 x9 O9. pose proof (f_cap u I) as C.
  uexec_cases H; ufields; try (eapply C; exact O9);
    try (apply upd_inv in O9; destruct O9 as [[-> ->]|[D O9]];
         [cbn [sb_q]; try exact (C _ _ Hob)|eapply C; exact O9]).
  - rewrite app_length. cbn [length].
    match goal with Q : Nat.ltb _ _ = true |- _ => apply Nat.ltb_lt in Q end. lia.
  - destruct (Nat.lt_ge_cases s9 (length (u_objs u))) as [Q|Q].
    + rewrite nth_error_app1 in O9 by exact Q. eauto.
    + rewrite nth_error_app2 in O9 by exact Q.
      destruct (s9 - length (u_objs u))%nat as [|[|]]; cbn in O9; try discriminate.
      injection O9 as <-. cbn. unfold cap_q. lia.
  - specialize (C _ _ Hob). rewrite Heql in C. cbn [length] in C. lia.
Qed.

Definition sub_ok (c : option (Z * Z * list nat)) (thr : list upc) (objs : list sub)
  (log : list uevent) : Prop :=
  forall i p s store, nth_error thr i = Some p -> receiving p = Some (s, store) ->
    exists x, nth_error objs s = Some x /\
      meant_for s log = Some (sb_lo x, sb_hi x, store ++ sb_q x ++ pend c s x).

Lemma cur_move : forall L thr i a p', nth_error thr i = Some a -> todo p' = todo a ->
  cur L (upd thr i p') = cur L thr.
Proof.
  intros [k|] thr i a p' N E; [|reflexivity]. unfold cur.
  destruct (Nat.eq_dec i k) as [<-|D].
  - rewrite N; erewrite upd_same by exact N. exact E.
  - rewrite upd_other by exact D. reflexivity.
Qed.

(** A goroutine moves; its subscriber and what it has received stay. *)
Lemma sub_move : forall c thr objs log i a p', sub_ok c thr objs log ->
  nth_error thr i = Some a ->
  (forall s st, receiving p' = Some (s, st) -> receiving a = Some (s, st)) ->
  sub_ok c (upd thr i p') objs log.
Proof.
  intros c thr objs log i a p' H N E j q s st Nj Rj. apply upd_inv in Nj.
  destruct Nj as [[-> ->]|[_ Nj]]; [exact (H _ _ _ _ N (E _ _ Rj))|exact (H _ _ _ _ Nj Rj)].
Qed.

(** The remaining work changes without effect on anybody. *)
Lemma sub_pend : forall c c' thr objs log, sub_ok c thr objs log ->
  (forall s x, nth_error objs s = Some x -> pend c' s x = pend c s x) ->
  sub_ok c' thr objs log.
Proof.
  intros c c' thr objs log H E j q s st Nj Rj.
  destruct (H _ _ _ _ Nj Rj) as (x & O & M). exists x. split; [exact O|].
  rewrite (E _ _ O). exact M.
Qed.

Lemma pend_range : forall c s x y, same_range x y -> pend c s y = pend c s x.
Proof.
  intros [[[id v] l]|] s x y H; [|reflexivity]. cbn. now rewrite (range_same _ _ _ H).
Qed.

Lemma sub_objs : forall c thr objs log s0 x0 y0, sub_ok c thr objs log ->
  nth_error objs s0 = Some x0 -> same_range x0 y0 -> sb_q y0 = sb_q x0 ->
  sub_ok c thr (upd objs s0 y0) log.
Proof.
  intros c thr objs log s0 x0 y0 H O R Q j q s st Nj Rj.
  destruct (H _ _ _ _ Nj Rj) as (x & Ox & M).
  destruct (Nat.eq_dec s0 s) as [->|D].
  - assert (x0 = x) as -> by congruence. exists y0.
    erewrite upd_same by first [exact N|exact Ox|exact O]. split; [reflexivity|].
    destruct R as [R1 R2]. rewrite R1, R2, Q, (pend_range _ _ _ _ (conj R1 R2)). exact M.
  - exists x. rewrite upd_other by exact D. auto.
Qed.

Lemma pend_skip : forall id v n l s x,
  (n = s -> in_range x id = false) ->
  pend (Some (id, v, l)) s x = pend (Some (id, v, n :: l)) s x.
Proof.
  intros. cbn. destruct (Nat.eqb_spec s n) as [->|D]; [|reflexivity].
  rewrite (H eq_refl), !andb_false_r. reflexivity.
Qed.

Lemma existsb_in : forall s l, existsb (Nat.eqb s) l = true <-> In s l.
Proof.
  intros. rewrite existsb_exists. split.
  - intros (x & A & B). apply Nat.eqb_eq in B. congruence.
  - intros A. exists s. rewrite Nat.eqb_refl. auto.
Qed.

Lemma cur_own : forall u i p, uinv u -> nth_error (u_thr u) i = Some p ->
  pub_holds p = true -> u_lock u = Some i /\ current u = todo p.
Proof.
  intros u i p I N H. pose proof (proj1 (a_lock u I i p N) H) as L. split; [exact L|].
  unfold current, cur. now rewrite L, N.
Qed.

Lemma cur_upd : forall thr i p p', nth_error thr i = Some p -> cur (Some i) (upd thr i p') = todo p'.
Proof.
  intros thr i p p' N. unfold cur.
  erewrite upd_same by first [exact N|exact Ox|exact O]. reflexivity.
Qed.

Lemma uexec_esub : forall u a u', uinv u -> uexec u a = Some u' ->
  sub_ok (current u') (u_thr u') (u_objs u') (u_log u').
Proof.
  intros u a u' I H. unfold current.
  assert (sub_ok (current u) (u_thr u) (u_objs u) (u_log u)) as C
    by (intros i p s st; apply (e_sub u I)).
  unfold current in C.
  uexec_cases H; ufields;
    try (erewrite cur_move by first [exact Hth|reflexivity];
         eapply sub_move; [exact C|exact Hth|]; intros s9 st9 R9; exact R9).
  - intros j q s st Nj Rj. apply uspawn_inv in Nj. destruct Nj as [Nj|[_ ->]]; [|discriminate].
    destruct (C _ _ _ _ Nj Rj) as (x & O & M). exists x. split; [exact O|]. rewrite M.
    unfold cur. destruct (u_lock u) as [k|] eqn:L; [|reflexivity].
    destruct (a_held u I k L) as [pk Nk]. rewrite nth_error_app1, Nk; [reflexivity|].
    apply nth_error_Some. congruence.
  - erewrite cur_move; [|exact Hth|destruct o; reflexivity].
    eapply sub_move; [exact C|exact Hth|]. intros s9 st9 R9. destruct o; discriminate.
  - (* Publish begins *)
    rewrite (cur_upd _ _ _ _ Hth). cbn [todo].
    intros j q s st Nj Rj. apply upd_inv in Nj. destruct Nj as [[-> ->]|[D Nj]]; [discriminate|].
    destruct (C _ _ _ _ Nj Rj) as (x & O & M). exists x. split; [exact O|].
    cbn [cur pend] in M. rewrite app_nil_r in M.
    cbn [meant_for]. rewrite M. cbn [pend].
    assert (existsb (Nat.eqb s) (u_subs u) = true) as ->
      by (apply existsb_in, (c_reg u I); eauto).
    unfold in_range. rewrite andb_true_l.
    destruct ((sb_lo x <=? id) && (id <=? sb_hi x)); rewrite ?app_nil_r, ?app_assoc; reflexivity.
  - (* Publish ends *)
    destruct (cur_own u i _ I Hth eq_refl) as [L Q]. unfold current in Q. rewrite Q in C.
    cbn [todo] in C. cbn [cur].
    intros j q s st Nj Rj. apply upd_inv in Nj. destruct Nj as [[-> ->]|[D Nj]]; [discriminate|].
    destruct (C _ _ _ _ Nj Rj) as (x & O & M). exists x. split; [exact O|]. exact M.
  - destruct (cur_own u i _ I Hth eq_refl) as [L Q]. unfold current in Q. rewrite Q in C.
    rewrite L, (cur_upd _ _ _ _ Hth). cbn [todo] in *.
    eapply sub_move; [|exact Hth|intros s9 st9 R9; exact R9].
    eapply sub_pend; [exact C|]. intros s9 x9 O9. apply pend_skip. intros ->. congruence.
  - (* PubSub *)
    erewrite cur_move by first [exact Hth|reflexivity].
    eapply sub_move; [|exact Hth|intros s9 st9 R9; exact R9].
    eapply sub_objs; [exact C|exact Hob|split; reflexivity|reflexivity].
  - (* the value enters the queue *)
    destruct (cur_own u i _ I Hth eq_refl) as [L Q]. unfold current in Q. rewrite Q in C.
    rewrite L, (cur_upd _ _ _ _ Hth). cbn [todo] in *.
    eapply sub_move; [|exact Hth|intros s9 st9 R9; exact R9].
    intros j q s9 st Nj Rj. destruct (C _ _ _ _ Nj Rj) as (x & O & M).
    destruct (d_todo u I _ _ _ _ _ Hth eq_refl) as [pre E].
    pose proof (c_nodup u I) as ND. rewrite E in ND.
    destruct (Nat.eq_dec s s9) as [->|D].
    + eexists. erewrite upd_same by first [exact N|exact Ox|exact O]. split; [reflexivity|].
      cbn [sb_lo sb_hi sb_q]. assert (s0 = x) as -> by congruence. rewrite M. f_equal. f_equal.
      cbn [pend existsb]. rewrite Nat.eqb_refl.
      pose proof (d_at u I _ _ _ _ _ Hth eq_refl Hob) as IR.
      assert (existsb (Nat.eqb s9) rest = false) as ->.
      { destruct (existsb (Nat.eqb s9) rest) eqn:EX; [|reflexivity]. apply existsb_in in EX.
        apply NoDup_remove_2 in ND. exfalso. apply ND, in_or_app. auto. }
      rewrite IR. cbn. rewrite app_nil_r. reflexivity.
    + exists x. rewrite upd_other by exact D. split; [exact O|]. rewrite M. f_equal. f_equal.
      f_equal. f_equal. symmetry. apply pend_skip. intros ->. congruence.
  - erewrite cur_move by first [exact Hth|reflexivity].
    eapply sub_move; [|exact Hth|intros s9 st9 R9; exact R9].
    eapply sub_objs; [exact C|exact Hob|split; reflexivity|reflexivity].
  - (* a new subscriber object *)
    erewrite cur_move by first [exact Hth|reflexivity].
    eapply sub_move; [|exact Hth|intros s9 st9 R9; exact R9].
    intros j q s9 st Nj Rj. destruct (C _ _ _ _ Nj Rj) as (x & O & M). exists x.
    split; [|exact M]. rewrite nth_error_app1; [exact O|]. apply nth_error_Some. congruence.
  - (* registration *)
    erewrite cur_move by first [exact Hth|reflexivity].
    rewrite Hlk. cbn [cur] in *.
    intros j q s9 st Nj Rj. apply upd_inv in Nj. destruct Nj as [[-> ->]|[D Nj]].
    + cbn in Rj. injection Rj as <- <-. eexists. split; [exact Hob|].
      destruct (c_fresh u I _ _ _ _ _ Hth Hob) as (Q1 & Q2 & Q3).
      rewrite meant_new, Nat.eqb_refl, Q1, Q2, Q3. reflexivity.
    + destruct (C _ _ _ _ Nj Rj) as (x & O & M). exists x. split; [exact O|].
      rewrite meant_new. destruct (Nat.eqb_spec s s9) as [->|D2]; [|exact M].
      exfalso. apply D. eapply (c_own u I); [exact Nj|exact Hth|eapply recv_owned; exact Rj|cbn; auto].
  - (* removal *)
    erewrite cur_move by first [exact Hth|reflexivity].
    eapply sub_move; [|exact Hth|intros s9 st9 R9; discriminate R9].
    intros j q s9 st Nj Rj. cbn [meant_for]. rewrite Hlk. exact (C _ _ _ _ Nj Rj).
  - (* reception *)
    erewrite cur_move by first [exact Hth|reflexivity].
    intros j q s9 st Nj Rj. apply upd_inv in Nj. destruct Nj as [[-> ->]|[D Nj]].
    + cbn in Rj. injection Rj as <- <-.
      destruct (C _ _ _ _ Hth eq_refl) as (x & O & M). assert (s0 = x) as -> by congruence.
      eexists. erewrite upd_same by first [exact N|exact Ox|exact O]. split; [reflexivity|].
      cbn [sb_lo sb_hi sb_q]. rewrite M, Heql. f_equal. f_equal. rewrite <- app_assoc. reflexivity.
    + destruct (C _ _ _ _ Nj Rj) as (x & O & M). exists x. split; [|exact M].
      rewrite upd_other; [exact O|]. intros ->. apply D.
      eapply (c_own u I); [exact Nj|exact Hth|eapply recv_owned; exact Rj|cbn; auto].
Qed.

Lemma uexec_ret : forall u a u', uinv u -> uexec u a = Some u' -> returns_ok (u_log u').
Proof.
  intros u a u' I H. pose proof (g_ret u I) as C.
  uexec_cases H; ufields; try exact C.
  cbn [returns_ok]. split; [|exact C].
  destruct (e_sub u I _ _ _ _ Hth eq_refl) as (x & O & M).
  unfold current in M. rewrite Hlk in M. cbn [cur pend] in M. rewrite app_nil_r in M.
  exists (sb_lo x), (sb_hi x), (sb_q x). split; [exact M|exact (f_cap u I _ _ O)].
Qed.

Lemma uexec_inv : forall u a u', uinv u -> uexec u a = Some u' -> uinv u'.
Proof.
  intros u a u' I H. constructor.
  - exact (uexec_lock u a u' I H).
  - exact (uexec_held u a u' I H).
  - exact (uexec_sublock u a u' I H).
  - exact (uexec_own u a u' I H).
  - exact (uexec_reg u a u' I H).
  - exact (uexec_fresh u a u' I H).
  - exact (uexec_nodup u a u' I H).
  - exact (uexec_range u a u' I H).
  - exact (uexec_clog u a u' I H).
  - exact (uexec_todo u a u' I H).
  - exact (uexec_dheld u a u' I H).
  - exact (uexec_at u a u' I H).
  - exact (uexec_esub u a u' I H).
  - exact (uexec_cap u a u' I H).
  - exact (uexec_ret u a u' I H).
Qed.

Lemma urun_inv : forall l u u', uinv u -> urun u l = Some u' -> uinv u'.
Proof.
  induction l as [|a l IH]; intros u u' I H; cbn in H; [congruence|].
  destruct (uexec u a) eqn:E; [|discriminate]. eapply IH; [|exact H].
  eapply uexec_inv; eassumption.
Qed.

Lemma ureach_inv : forall u, ureachable u -> uinv u.
Proof. intros u [l H]. exact (urun_inv l _ _ uinit_inv H). Qed.
