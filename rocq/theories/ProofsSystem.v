(** * Many callers sharing one client: invariants of all interleavings *)

Require Import List ZArith Bool Lia Permutation.
From Verif Require Import ModelClient ModelSystem SpecSystem.
From Verif Require ModelTsm SpecTsm ProofsTsm ProofsTsmProps.
Import ListNotations.
Open Scope Z_scope.

(** ** Programs and calls *)

Definition got (a : attempt) : cerr + payload :=
  if at_sent a then match at_reply a with None => inl CTimeout | Some p => inr p end else inl CSend.

Fixpoint interp {A} (e : env) (k : nat) (p : prog A) : call A :=
  match p with
  | PRet r => ([], r)
  | PTry g f => let '(tr, r) := interp e (S k) (f (got (ev_att e k g))) in (g :: tr, r)
  end.

Lemma interp_pmap : forall A B (f : A -> B) e (p : prog A) k,
  interp e k (pmap f p) = both f (interp e k p).
Proof.
  induction p as [r|g p IH]; intros k; cbn [pmap interp both]; [reflexivity|].
  rewrite IH. destruct (interp e (S k) (p (got (ev_att e k g)))) as [tr r]. reflexivity.
Qed.

Lemma rp_same : forall e dest data n k last,
  rp_loop n k e dest data last = interp e k (rp_prog n dest data last).
Proof.
  intros e dest data n. destruct (send_dgram dest data None) as [g|] eqn:S0.
  - induction n as [|n IH]; intros k last; [reflexivity|].
    cbn [rp_loop rp_prog]. unfold exchange, try_send. rewrite S0. cbn [interp].
    unfold got. destruct (at_sent (ev_att e k g)).
    + destruct (at_reply (ev_att e k g)) as [[b|c x]|].
      * destruct (check_apdu (newDecoder b)) as [[err|] d].
        -- rewrite IH. destruct (interp _ _ _). reflexivity.
        -- destruct (dec_ReadProperty d) as [[[out|] [err|]] d'| |]; try reflexivity;
             rewrite IH; destruct (interp _ _ _); reflexivity.
      * reflexivity.
      * rewrite IH. destruct (interp _ _ _). reflexivity.
    + rewrite IH. destruct (interp _ _ _). reflexivity.
  - intros k last. revert k last.
    assert (forall k k' last, rp_loop n k e dest data last = interp e k' (rp_prog n dest data last)) as Q.
    { induction n as [|n IH]; intros k k' last; [reflexivity|].
      cbn [rp_loop rp_prog]. unfold exchange, try_send. rewrite S0.
      rewrite (IH _ k'). destruct (interp _ _ _). reflexivity. }
    intros. apply Q.
Qed.

Lemma wp_same : forall e dest data n k last,
  wp_loop n k e dest data last = interp e k (wp_prog n dest data last).
Proof.
  intros e dest data n. destruct (send_dgram dest data None) as [g|] eqn:S0.
  - induction n as [|n IH]; intros k last; [reflexivity|].
    cbn [wp_loop wp_prog]. unfold exchange, try_send. rewrite S0. cbn [interp].
    unfold got. destruct (at_sent (ev_att e k g)).
    + destruct (at_reply (ev_att e k g)) as [[b|c x]|].
      * destruct (check_apdu (newDecoder b)) as [[err|] d]; cbn [fst].
        -- rewrite IH. destruct (interp _ _ _). reflexivity.
        -- reflexivity.
      * reflexivity.
      * rewrite IH. destruct (interp _ _ _). reflexivity.
    + rewrite IH. destruct (interp _ _ _). reflexivity.
  - assert (forall k k' last, wp_loop n k e dest data last = interp e k' (wp_prog n dest data last)) as Q.
    { induction n as [|n IH]; intros k k' last; [reflexivity|].
      cbn [wp_loop wp_prog]. unfold exchange, try_send. rewrite S0.
      rewrite (IH _ k'). destruct (interp _ _ _). reflexivity. }
    intros. apply Q.
Qed.

Lemma rpm_same : forall fuel e dest data n k last,
  rpm_loop fuel n k e dest data last = interp e k (rpm_prog fuel n dest data last).
Proof.
  intros fuel e dest data n. destruct (send_dgram dest data None) as [g|] eqn:S0.
  - induction n as [|n IH]; intros k last; [reflexivity|].
    cbn [rpm_loop rpm_prog]. unfold exchange, try_send. rewrite S0. cbn [interp].
    unfold got. destruct (at_sent (ev_att e k g)).
    + destruct (at_reply (ev_att e k g)) as [[b|c x]|].
      * destruct (check_apdu (newDecoder b)) as [[err|] d].
        -- rewrite IH. destruct (interp _ _ _). reflexivity.
        -- destruct (dec_ReadMultiplePropertyAck fuel d) as [[objs [err|]] d'| |]; try reflexivity.
           rewrite IH; destruct (interp _ _ _); reflexivity.
      * rewrite IH. destruct (interp _ _ _). reflexivity.
      * rewrite IH. destruct (interp _ _ _). reflexivity.
    + rewrite IH. destruct (interp _ _ _). reflexivity.
  - assert (forall k k' last, rpm_loop fuel n k e dest data last = interp e k' (rpm_prog fuel n dest data last)) as Q.
    { induction n as [|n IH]; intros k k' last; [reflexivity|].
      cbn [rpm_loop rpm_prog]. unfold exchange, try_send. rewrite S0.
      rewrite (IH _ k'). destruct (interp _ _ _). reflexivity. }
    intros. apply Q.
Qed.

Lemma wpm_same : forall e dest data n k last,
  wpm_loop n k e dest data last = interp e k (wpm_prog n dest data last).
Proof.
  intros e dest data n. destruct (send_dgram dest data None) as [g|] eqn:S0.
  - induction n as [|n IH]; intros k last; [reflexivity|].
    cbn [wpm_loop wpm_prog]. unfold exchange, try_send. rewrite S0. cbn [interp].
    unfold got. destruct (at_sent (ev_att e k g)).
    + destruct (at_reply (ev_att e k g)) as [[b|c x]|].
      * destruct (check_apdu (newDecoder b)) as [[err|] d]; cbn [fst].
        -- rewrite IH. destruct (interp _ _ _). reflexivity.
        -- reflexivity.
      * rewrite IH. destruct (interp _ _ _). reflexivity.
      * rewrite IH. destruct (interp _ _ _). reflexivity.
    + rewrite IH. destruct (interp _ _ _). reflexivity.
  - assert (forall k k' last, wpm_loop n k e dest data last = interp e k' (wpm_prog n dest data last)) as Q.
    { induction n as [|n IH]; intros k k' last; [reflexivity|].
      cbn [wpm_loop wpm_prog]. unfold exchange, try_send. rewrite S0.
      rewrite (IH _ k'). destruct (interp _ _ _). reflexivity. }
    intros. apply Q.
Qed.

Lemma alone_interp : forall e me rq, alone e me rq = interp e 0 (start me rq (ev_id e)).
Proof.
  intros e me [d rp|d wp|fuel d rp|d wp]; cbn [alone start]; rewrite interp_pmap; f_equal.
  - unfold ReadProperty, ReadProperty_prog. destruct (ev_id e) as [id|]; [|reflexivity].
    destruct (enc_NPDU _ _) as [en|]; [|reflexivity].
    destruct (enc_ReadProperty _ _ _) as [[en' [x|]]|]; try reflexivity. apply rp_same.
  - unfold WriteProperty, WriteProperty_prog. destruct (ev_id e) as [id|]; [|reflexivity].
    destruct (enc_NPDU _ _) as [en|]; [|reflexivity].
    destruct (enc_WriteProperty _ _ _) as [[en' x]|]; try reflexivity.
    destruct (eerr en'); [reflexivity|]. apply wp_same.
  - unfold ReadMultiProperty, ReadMultiProperty_prog. destruct (ev_id e) as [id|]; [|reflexivity].
    destruct (dv_maxapdu d =? 0); [reflexivity|].
    destruct (enc_NPDU _ _) as [en|]; [|reflexivity].
    destruct (enc_ReadMultipleProperty _ _ _) as [[en' [x|]]|]; try reflexivity.
    destruct (dv_maxapdu d <? _); [reflexivity|]. apply rpm_same.
  - unfold WriteMultiProperty, WriteMultiProperty_prog. destruct (ev_id e) as [id|]; [|reflexivity].
    destruct (enc_NPDU _ _) as [en|]; [|reflexivity].
    destruct (enc_WriteMultiProperty _ _ _) as [[en' x]|]; try reflexivity.
    destruct (eerr en'); [reflexivity|].
    destruct (dv_maxapdu d <? _); [reflexivity|]. apply wpm_same.
Qed.

(** ** Histories *)

Fixpoint feed (p : prog answer) (h : list (cerr + payload)) {struct h} : option (list datagram * prog answer) :=
  match h with
  | [] => Some ([], p)
  | x :: h' =>
    match p with
    | PRet _ => None
    | PTry g f =>
      match feed (f x) h' with Some (tr, q) => Some (g :: tr, q) | None => None end
    end
  end.

Lemma feed_snoc : forall h p tr g f x, feed p h = Some (tr, PTry g f) ->
  feed p (h ++ [x]) = Some (tr ++ [g], f x).
Proof.
  induction h as [|y h IH]; intros p tr g f x H; cbn [feed app] in *.
  - injection H as <- ->. reflexivity.
  - destruct p as [r|g0 f0]; [discriminate|].
    destruct (feed (f0 y) h) as [[tr' q]|] eqn:F; [|discriminate].
    injection H as <- ->. rewrite (IH _ _ _ _ x F). reflexivity.
Qed.

Definition attempt_of (x : cerr + payload) : attempt :=
  match x with
  | inl CSend => mkAtt false None
  | inl _ => mkAtt true None
  | inr p => mkAtt true (Some p)
  end.

(** the environment in which the call, made alone, behaves as it did *)
Definition env_of (id : option Z) (h : list (cerr + payload)) : env :=
  mkEnv id (fun k _ => attempt_of (nth k h (inl CSend))).

Definition plain (x : cerr + payload) : Prop :=
  match x with inl e => e = CSend \/ e = CTimeout | inr _ => True end.

Lemma feed_interp : forall id h0 h p tr r, feed p h = Some (tr, PRet r) -> Forall plain h ->
  interp (env_of id (h0 ++ h)) (length h0) p = (tr, r).
Proof.
  intros id h0 h. revert h0. induction h as [|x h IH]; intros h0 p tr r F P; cbn [feed] in F.
  - injection F as <- ->. reflexivity.
  - destruct p as [r0|g f]; [discriminate|].
    destruct (feed (f x) h) as [[tr' q]|] eqn:F1; [|discriminate].
    injection F as <- ->. inversion P as [|? ? P1 P2]; subst.
    cbn [interp env_of ev_att]. rewrite app_nth2 by apply Nat.le_refl.
    rewrite Nat.sub_diag. cbn [nth].
    assert (got (attempt_of x) = x) as ->.
    { destruct x as [e|q]; [|reflexivity]. destruct P1 as [-> | ->]; reflexivity. }
    specialize (IH (h0 ++ [x]) (f x) tr' r F1 P2).
    rewrite app_length in IH. cbn [length] in IH. rewrite Nat.add_comm in IH.
    rewrite <- app_assoc in IH. cbn [app plus] in IH. rewrite IH. reflexivity.
Qed.

(** ** Steps of the transaction manager, seen from outside *)

Import ModelTsm SpecTsm ProofsTsm ProofsTsmProps.

(** One goroutine moves on within its call. *)
Inductive moves (s : sys) : pc -> pc -> Prop :=
| mv_id1 : moves s IDSpace IDFree
| mv_id2 : forall id, moves s IDFree (IDGet id)
| mv_id3 : moves s IDFree IDBack
| mv_id4 : forall id o, moves s (IDGet id) (IDMake id o)
| mv_id5 : forall id o, moves s (IDMake id o) (IDLock id o)
| mv_put1 : forall id o g, lookup id (sy_table s) = Some (o, g) ->
    moves s (PutLock id) (PutClose id o g)
| mv_put2 : forall id o g, moves s (PutPool id o g) (PutId id o g)
| mv_put3 : forall id o g, moves s (PutId id o g) (PutSpace id o g)
| mv_put4 : forall id o g, moves s (PutSpace id o g) (PutDel id o g)
| mv_send : forall id v o g c, moves s (SendEval id v o g) (SendWait id v c g)
| mv_recv1 : forall id o g, lookup id (sy_table s) = Some (o, g) ->
    moves s (RecvLock id) (RecvEval id o g)
| mv_recv2 : forall id o g c, moves s (RecvEval id o g) (RecvWait id c g).

(** An event that ends a call of one goroutine (or closes a channel within it). *)
Inductive ends (s : sys) : nat -> pc -> pc -> ModelTsm.event -> Prop :=
| en_noid1 : forall i, ends s i IDBack PIdle (ENoId i)
| en_noid2 : forall i, ends s i IDSpace PIdle (ENoId i)
| en_puterr : forall i id, lookup id (sy_table s) = None -> ends s i (PutLock id) PIdle (EPutErr i id)
| en_close : forall i id o g, ends s i (PutClose id o g) (PutPool id o g) (EClosed i id g)
| en_found : forall i id v o g, ends s i (SendLock id v) (SendEval id v o g) (ESendFound i id v g)
| en_senderr : forall i id v, ends s i (SendLock id v) PIdle (ESendErr i id v)
| en_nil : forall i id c g, closed s c = true -> ends s i (RecvWait id (Some c) g) PIdle (ERecvNil i id)
| en_timeout : forall i id c g, ends s i (RecvWait id c g) PIdle (ERecvTimeout i id)
| en_recverr : forall i id, lookup id (sy_table s) = None -> ends s i (RecvLock id) PIdle (ERecvErr i id).

Inductive tstep (s s' : sys) : Prop :=
| ts_none : sy_thr s' = sy_thr s -> sy_table s' = sy_table s -> sy_gen s' = sy_gen s ->
    sy_log s' = sy_log s -> tstep s s'
| ts_move : forall i p p', nth_error (sy_thr s) i = Some p -> moves s p p' ->
    sy_thr s' = upd (sy_thr s) i p' -> sy_table s' = sy_table s -> sy_gen s' = sy_gen s ->
    sy_log s' = sy_log s -> tstep s s'
| ts_end : forall i p p' e, nth_error (sy_thr s) i = Some p -> ends s i p p' e ->
    sy_thr s' = upd (sy_thr s) i p' -> sy_table s' = sy_table s -> sy_gen s' = sy_gen s ->
    sy_log s' = e :: sy_log s -> tstep s s'
| ts_got : forall i id o, nth_error (sy_thr s) i = Some (IDLock id o) -> sy_lock s = None ->
    sy_thr s' = upd (sy_thr s) i PIdle ->
    sy_table s' = (id, (o, sy_gen s)) :: without id (sy_table s) -> sy_gen s' = S (sy_gen s) ->
    sy_log s' = EGot i id o (sy_gen s) :: sy_log s -> tstep s s'
| ts_put : forall i id o g, nth_error (sy_thr s) i = Some (PutDel id o g) ->
    sy_thr s' = upd (sy_thr s) i PIdle -> sy_table s' = without id (sy_table s) ->
    sy_gen s' = sy_gen s -> sy_log s' = EPut i id g :: sy_log s -> tstep s s'
| ts_deliver : forall i j sid v c sg rid rg, i <> j ->
    nth_error (sy_thr s) i = Some (SendWait sid v (Some c) sg) ->
    nth_error (sy_thr s) j = Some (RecvWait rid (Some c) rg) ->
    sy_thr s' = upd (upd (sy_thr s) i PIdle) j PIdle -> sy_table s' = sy_table s ->
    sy_gen s' = sy_gen s -> sy_log s' = ModelTsm.EDeliver i sid sg j rid rg v :: sy_log s -> tstep s s'
| ts_crash : forall i, sy_thr s' = sy_thr s -> sy_table s' = sy_table s -> sy_gen s' = sy_gen s ->
    sy_crash s' = true -> sy_log s' = ECrash i :: sy_log s -> tstep s s'.

Lemma inside_tstep : forall s a s', inside a = true -> exec s a = Some s' -> tstep s s'.
Proof.
  intros s a s' A H. exec_cases H; try discriminate A;
    try (eapply ts_move; [eassumption | econstructor; eassumption | reflexivity | reflexivity | reflexivity | reflexivity]; fail);
    try (eapply ts_move; [eassumption | econstructor | reflexivity | reflexivity | reflexivity | reflexivity]; fail);
    try (eapply ts_end; [eassumption | econstructor; eassumption | reflexivity | reflexivity | reflexivity | reflexivity]; fail);
    try (eapply ts_end; [eassumption | econstructor | reflexivity | reflexivity | reflexivity | reflexivity]; fail);
    try (eapply ts_got; try eassumption; reflexivity);
    try (eapply ts_put; try eassumption; reflexivity);
    try (eapply ts_crash; reflexivity);
    try (apply ts_none; reflexivity).
  apply andb_prop in Heqb0. destruct Heqb0 as [E _]. apply Nat.eqb_eq in E. subst.
  eapply ts_deliver; try eassumption; try reflexivity. intros ->. congruence.
Qed.

(** ** The invariant *)

Definition owns (x : phase) : option (Z * nat) :=
  match x with
  | NRun _ id g _ _ _ | NRecv _ id g _ _ _ | NPut _ id g _ _ _ => Some (id, g)
  | _ => None
  end.

(** holds its transaction and has not begun to release it *)
Definition running (x : phase) : bool :=
  match x with NRun _ _ _ _ _ _ | NRecv _ _ _ _ _ _ => true | _ => false end.

Definition fits (ins : list arrival) (x : phase) (p : pc) : Prop :=
  match x with
  | NFree | NRun _ _ _ _ _ _ | NStray => p = PIdle
  | NId _ =>
      match p with IDSpace | IDFree | IDBack | IDGet _ | IDMake _ _ | IDLock _ _ => True | _ => False end
  | NRecv _ id g _ _ _ =>
      match p with
      | RecvLock i => i = id
      | RecvEval i _ g' | RecvWait i _ g' => i = id /\ g' = g
      | _ => False
      end
  | NPut _ id g _ _ _ =>
      match p with
      | PutLock i => i = id
      | PutClose i _ g' | PutPool i _ g' | PutId i _ g' | PutSpace i _ g' | PutDel i _ g' =>
          i = id /\ g' = g
      | _ => False
      end
  | NHandle v =>
      exists a, nth_error ins v = Some a /\
      match p with
      | SendLock i x | SendEval i x _ _ | SendWait i x _ _ => i = ar_id a /\ x = Z.of_nat v
      | _ => False
      end
  end.

Definition told (ins : list arrival) (x : reply) : cerr + payload :=
  match x with
  | inl e => inl e
  | inr v => inr (match nth_error ins v with Some a => ar_load a | None => PBytes [] end)
  end.

Definition reply_ok (nr : Prop) (ins : list arrival) (id : Z) (x : reply) : Prop :=
  match x with
  | inl e => e = CSend \/ e = CTimeout
  | inr v => exists a, nth_error ins v = Some a /\ (nr -> ar_id a = id)
  end.

Definition hist_ok (me : option address) (nr : Prop) (ins : list arrival) (x : phase) : Prop :=
  match x with
  | NRun rq id _ h tr p =>
      feed (start me rq (Some id)) (map (told ins) h) = Some (tr, p) /\ Forall (reply_ok nr ins id) h
  | NRecv rq id _ h tr k =>
      (exists tr0 d, tr = tr0 ++ [d] /\
         feed (start me rq (Some id)) (map (told ins) h) = Some (tr0, PTry d k)) /\
      Forall (reply_ok nr ins id) h
  | NPut rq id _ h tr r =>
      feed (start me rq (Some id)) (map (told ins) h) = Some (tr, PRet r) /\
      Forall (reply_ok nr ins id) h
  | NStray => False
  | _ => True
  end.

Definition done_ok (me : option address) (nr : Prop) (ins : list arrival) (f : finished) : Prop :=
  match fi_id f with
  | Some id =>
      feed (start me (fi_req f) (Some id)) (map (told ins) (fi_hist f))
        = Some (fi_sent f, PRet (fi_result f)) /\
      Forall (reply_ok nr ins id) (fi_hist f)
  | None => fi_hist f = [] /\ fi_sent f = [] /\ start me (fi_req f) None = PRet (fi_result f)
  end.

Definition arr_ok (l : list waction) (a : arrival) : Prop :=
  (exists i, In (WArrive i (ar_src a) (ar_bytes a)) l) /\
  In (ModelClient.EDeliver (ar_id a) (ar_load a))
     (fst (handleMsg (fun _ => true) (ar_src a) (ar_bytes a))).

Definition fresh_run (l : list waction) : Prop := forallb (fun a => negb (recycles a)) l = true.

Record winvA (me : option address) (l : list waction) (w : world) : Prop := {
  a_tsm : exists tl, run (init defaultStateSize) tl = Some (w_tsm w) /\
            (fresh_run l -> forallb (fun a => negb (reuses a)) tl = true);
  a_len : length (w_ph w) = length (sy_thr (w_tsm w));
  a_fits : forall i x p, nth_error (w_ph w) i = Some x -> nth_error (sy_thr (w_tsm w)) i = Some p ->
             fits (w_in w) x p;
  a_hist : forall i x, nth_error (w_ph w) i = Some x -> hist_ok me (fresh_run l) (w_in w) x;
  a_in : forall a, In a (w_in w) -> arr_ok l a;
  a_done : forall f, In f (w_done w) -> done_ok me (fresh_run l) (w_in w) f
}.

Record winvB (w : world) : Prop := {
  b_own : forall i x id g, nth_error (w_ph w) i = Some x -> owns x = Some (id, g) ->
            exists o, In (id, (o, g)) (sy_table (w_tsm w));
  b_uniq : forall i j x y id g g', nth_error (w_ph w) i = Some x -> nth_error (w_ph w) j = Some y ->
            owns x = Some (id, g) -> owns y = Some (id, g') -> i = j;
  b_all : forall id o g, In (id, (o, g)) (sy_table (w_tsm w)) ->
            exists i x, nth_error (w_ph w) i = Some x /\ owns x = Some (id, g);
  b_gen : forall id o g, In (id, (o, g)) (sy_table (w_tsm w)) -> (g < sy_gen (w_tsm w))%nat;
  b_cgen : forall k id g, In (EClosed k id g) (sy_log (w_tsm w)) -> (g < sy_gen (w_tsm w))%nat;
  b_open : forall i x id g k, nth_error (w_ph w) i = Some x -> owns x = Some (id, g) ->
            running x = true -> ~ In (EClosed k id g) (sy_log (w_tsm w))
}.

(** *** Monotonicity *)

Lemma nth_error_grow : forall A (l e : list A) v a, nth_error l v = Some a -> nth_error (l ++ e) v = Some a.
Proof.
  intros A l e v a H. rewrite nth_error_app1; [exact H|].
  apply nth_error_Some. congruence.
Qed.

Lemma reply_mono : forall (nr nr' : Prop) ins e id x, (nr' -> nr) -> reply_ok nr ins id x ->
  reply_ok nr' (ins ++ e) id x /\ told (ins ++ e) x = told ins x.
Proof.
  intros nr nr' ins e id [y|v] N H; cbn in *; [auto|].
  destruct H as (a & E & I). rewrite (nth_error_grow _ _ e _ _ E), E. split; [|reflexivity].
  exists a. auto.
Qed.

Lemma hist_list_mono : forall (nr nr' : Prop) ins e id h, (nr' -> nr) -> Forall (reply_ok nr ins id) h ->
  Forall (reply_ok nr' (ins ++ e) id) h /\ map (told (ins ++ e)) h = map (told ins) h.
Proof.
  intros nr nr' ins e id h N H. induction H as [|x h Hx H IH]; [split; [constructor|reflexivity]|].
  destruct (reply_mono nr nr' ins e id x N Hx) as [A B]. destruct IH as [C D].
  split; [constructor; assumption|]. cbn [map]. now rewrite B, D.
Qed.

Lemma hist_mono : forall me (nr nr' : Prop) ins e x, (nr' -> nr) -> hist_ok me nr ins x ->
  hist_ok me nr' (ins ++ e) x.
Proof.
  intros me nr nr' ins e [] N H; cbn [hist_ok] in *; auto;
    destruct H as [H F]; destruct (hist_list_mono _ _ _ e _ _ N F) as [F' ->]; split; assumption.
Qed.

Lemma done_mono : forall me (nr nr' : Prop) ins e f, (nr' -> nr) -> done_ok me nr ins f ->
  done_ok me nr' (ins ++ e) f.
Proof.
  intros me nr nr' ins e f N H. unfold done_ok in *. destruct (fi_id f); [|exact H].
  destruct H as [H F]; destruct (hist_list_mono _ _ _ e _ _ N F) as [F' ->]; split; assumption.
Qed.

Lemma fits_mono : forall ins e x p, fits ins x p -> fits (ins ++ e) x p.
Proof.
  intros ins e x q H; destruct x; cbn [fits] in *; auto.
  destruct H as (a & E & H). exists a. split; [apply nth_error_grow; exact E|exact H].
Qed.

Lemma fresh_app : forall l a, fresh_run (l ++ [a]) -> fresh_run l /\ recycles a = false.
Proof.
  unfold fresh_run. intros l a H. rewrite forallb_app in H. apply andb_prop in H.
  destruct H as [H1 H2]. split; [exact H1|]. cbn in H2. destruct (recycles a); [discriminate|reflexivity].
Qed.

Lemma run_snoc : forall tl s s1 a s2, run s tl = Some s1 -> exec s1 a = Some s2 ->
  run s (tl ++ [a]) = Some s2.
Proof.
  induction tl as [|b tl IH]; intros s s1 a s2 H E; cbn [run app] in *.
  - injection H as ->. rewrite E. reflexivity.
  - destruct (exec s b); [|discriminate]. eapply IH; eassumption.
Qed.

(** *** Steps that touch some goroutines only *)

(** Goroutine [j] either is as before or fulfils its part of the invariant anew. *)
Lemma stepA : forall me l a w w' e,
  winvA me l w ->
  (exists tl, run (init defaultStateSize) tl = Some (w_tsm w') /\
            (fresh_run (l ++ [a]) -> forallb (fun a => negb (reuses a)) tl = true)) ->
  w_in w' = w_in w ++ e -> (forall x, In x e -> arr_ok (l ++ [a]) x) ->
  (forall f, In f (w_done w') -> In f (w_done w) \/ done_ok me (fresh_run (l ++ [a])) (w_in w') f) ->
  length (w_ph w') = length (sy_thr (w_tsm w')) ->
  (forall j x', nth_error (w_ph w') j = Some x' ->
     (nth_error (w_ph w) j = Some x' /\
      nth_error (sy_thr (w_tsm w')) j = nth_error (sy_thr (w_tsm w)) j) \/
     (hist_ok me (fresh_run (l ++ [a])) (w_in w') x' /\
      forall p, nth_error (sy_thr (w_tsm w')) j = Some p -> fits (w_in w') x' p)) ->
  winvA me (l ++ [a]) w'.
Proof.
  intros me l a w w' e [T L F H I D] T' E Ea Ed L' P.
  assert (fresh_run (l ++ [a]) -> fresh_run l) as N by (intros Q; apply fresh_app in Q; tauto).
  constructor; [exact T'|exact L'| | | |].
  - intros i x p Nx Np. destruct (P i x Nx) as [[Q1 Q2]|[Q1 Q2]]; [|auto].
    rewrite Q2 in Np. rewrite E. apply fits_mono. eauto.
  - intros i x Nx. destruct (P i x Nx) as [[Q1 Q2]|[Q1 Q2]]; [|exact Q1].
    rewrite E. eapply hist_mono; [exact N|eauto].
  - intros x X. rewrite E in X. apply in_app_iff in X. destruct X as [X|X]; [|auto].
    destruct (I x X) as ((i & Q) & R). split; [|exact R]. exists i. apply in_app_iff. auto.
  - intros f Hf. destruct (Ed f Hf) as [Q|Q]; [|exact Q].
    rewrite E. eapply done_mono; [exact N|auto].
Qed.

(** No transaction begins or ends. *)
Lemma stepB : forall w w',
  inv1 (w_tsm w) -> winvB w ->
  sy_table (w_tsm w') = sy_table (w_tsm w) -> sy_gen (w_tsm w') = sy_gen (w_tsm w) ->
  (length (w_ph w) <= length (w_ph w'))%nat ->
  (forall j x', nth_error (w_ph w') j = Some x' ->
     (exists x, nth_error (w_ph w) j = Some x /\ owns x' = owns x /\ (running x' = true -> running x = true)) \/
     (owns x' = None /\ nth_error (w_ph w) j = None)) ->
  (forall k id g, In (EClosed k id g) (sy_log (w_tsm w')) -> In (EClosed k id g) (sy_log (w_tsm w)) \/
     exists x, nth_error (w_ph w') k = Some x /\ owns x = Some (id, g) /\ running x = false) ->
  winvB w'.
Proof.
  intros w w' I1 [O U A G C R] T Ge L P K.
  assert (forall j x' id g, nth_error (w_ph w') j = Some x' -> owns x' = Some (id, g) ->
            exists x, nth_error (w_ph w) j = Some x /\ owns x = Some (id, g) /\
                      (running x' = true -> running x = true)) as Q.
  { intros j x' id g N W. destruct (P j x' N) as [(x & N1 & E & S)|[E _]]; [|congruence].
    exists x. split; [exact N1|]. split; [congruence|exact S]. }
  constructor.
  - intros i x id g N W. rewrite T. destruct (Q _ _ _ _ N W) as (y & N1 & W1 & _). eauto.
  - intros i j x y id g g' Ni Nj Wi Wj.
    destruct (Q _ _ _ _ Ni Wi) as (x1 & N1 & W1 & _).
    destruct (Q _ _ _ _ Nj Wj) as (y1 & N2 & W2 & _). eauto.
  - intros id o g H. rewrite T in H. destruct (A _ _ _ H) as (i & x & N & W).
    destruct (nth_error (w_ph w') i) as [x'|] eqn:N'.
    + exists i, x'. split; [exact N'|].
      destruct (P i x' N') as [(y & N1 & E & S)|[_ E]]; [congruence|congruence].
    + apply nth_error_None in N'. assert (i < length (w_ph w))%nat by (apply nth_error_Some; congruence). lia.
  - intros id o g H. rewrite T in H. rewrite Ge. eauto.
  - intros k id g H. rewrite Ge. destruct (K _ _ _ H) as [H1|(x & N & W & _)]; [eauto|].
    destruct (Q _ _ _ _ N W) as (y & N1 & W1 & _). destruct (O _ _ _ _ N1 W1) as (o & H2). eauto.
  - intros i x id g k N W S H. destruct (Q _ _ _ _ N W) as (y & N1 & W1 & S1).
    destruct (K _ _ _ H) as [H1|(z & Nz & Wz & Sz)].
    + eapply R; [exact N1|exact W1|auto|exact H1].
    + destruct (Q _ _ _ _ Nz Wz) as (z1 & N3 & W3 & _).
      assert (i = k) as -> by (eapply U; eassumption). congruence.
Qed.

Lemma step_one : forall me l a w w' e i x x' p p',
  winvA me l w -> winvB w -> inv1 (w_tsm w) ->
  nth_error (w_ph w) i = Some x -> nth_error (sy_thr (w_tsm w)) i = Some p ->
  w_ph w' = upd (w_ph w) i x' -> sy_thr (w_tsm w') = upd (sy_thr (w_tsm w)) i p' ->
  sy_table (w_tsm w') = sy_table (w_tsm w) -> sy_gen (w_tsm w') = sy_gen (w_tsm w) ->
  (exists tl, run (init defaultStateSize) tl = Some (w_tsm w') /\
            (fresh_run (l ++ [a]) -> forallb (fun a => negb (reuses a)) tl = true)) ->
  w_in w' = w_in w ++ e -> (forall x, In x e -> arr_ok (l ++ [a]) x) ->
  (forall f, In f (w_done w') -> In f (w_done w) \/ done_ok me (fresh_run (l ++ [a])) (w_in w') f) ->
  owns x' = owns x -> (running x' = true -> running x = true) ->
  hist_ok me (fresh_run (l ++ [a])) (w_in w') x' -> fits (w_in w') x' p' ->
  (forall k id g, In (EClosed k id g) (sy_log (w_tsm w')) -> In (EClosed k id g) (sy_log (w_tsm w)) \/
     (k = i /\ owns x' = Some (id, g) /\ running x' = false)) ->
  winvA me (l ++ [a]) w' /\ winvB w'.
Proof.
  intros me l a w w' e i x x' p p' IA IB I1 Nx Np P T Tab Gen Run In_ Ea Ed Ow Ru Hi Fi Cl.
  split.
  - eapply stepA; try eassumption.
    + rewrite P, T, !upd_length. apply (a_len _ _ _ IA).
    + intros j y Ny. rewrite P in Ny. rewrite T. destruct (upd_inv _ _ _ _ _ _ Ny) as [[-> ->]|[D N]].
      * right. split; [exact Hi|]. intros q Nq. rewrite (upd_same _ _ _ _ _ Np) in Nq.
        injection Nq as <-. exact Fi.
      * left. split; [exact N|]. apply upd_other. auto.
  - eapply stepB; try eassumption.
    + rewrite P, upd_length. apply Nat.le_refl.
    + intros j y Ny. rewrite P in Ny. left. destruct (upd_inv _ _ _ _ _ _ Ny) as [[-> ->]|[D N]]; eauto.
    + intros k id g H. destruct (Cl k id g H) as [H1|(-> & W & S)]; [auto|].
      right. exists x'. rewrite P. split; [eapply upd_same; eassumption|auto].
Qed.

Lemma exec_call : forall s i o s', exec s (ACall i o) = Some s' ->
  nth_error (sy_thr s) i = Some PIdle /\ s' = set_pc s i (entry_of o).
Proof.
  intros s i o s' H. unfold exec in H. destruct (sy_crash s); [discriminate|].
  destruct (nth_error (sy_thr s) i) as [[]|]; try discriminate. injection H as <-. auto.
Qed.

Lemma tsm_more : forall me l a w s b, winvA me l w -> exec (w_tsm w) b = Some s ->
  reuses b = recycles a ->
  exists tl, run (init defaultStateSize) tl = Some s /\
            (fresh_run (l ++ [a]) -> forallb (fun a => negb (reuses a)) tl = true).
Proof.
  intros me l a w s b IA E R. destruct (a_tsm _ _ _ IA) as (tl & H & F).
  exists (tl ++ [b]). split; [eapply run_snoc; eassumption|].
  intros Q. apply fresh_app in Q. destruct Q as [Q1 Q2]. rewrite forallb_app, (F Q1). cbn.
  now rewrite R, Q2.
Qed.

Lemma tsm_same : forall me l a w, winvA me l w ->
  exists tl, run (init defaultStateSize) tl = Some (w_tsm w) /\
            (fresh_run (l ++ [a]) -> forallb (fun a => negb (reuses a)) tl = true).
Proof.
  intros me l a w IA. destruct (a_tsm _ _ _ IA) as (tl & H & F).
  exists tl. split; [exact H|]. intros Q. apply fresh_app in Q. tauto.
Qed.

Lemma winvA_inv : forall me l w, winvA me l w ->
  inv1 (w_tsm w) /\ inv2 (w_tsm w) /\ inv3 (w_tsm w).
Proof.
  intros me l w IA. destruct (a_tsm _ _ _ IA) as (tl & H & _).
  destruct (reach_inv defaultStateSize (w_tsm w)) as (A & B & C & _); [exists tl; exact H|auto].
Qed.

(** the pc that goes with a phase *)
Lemma pc_of : forall me l w i x, winvA me l w -> nth_error (w_ph w) i = Some x ->
  exists p, nth_error (sy_thr (w_tsm w)) i = Some p /\ fits (w_in w) x p.
Proof.
  intros me l w i x IA N. destruct (nth_error (sy_thr (w_tsm w)) i) as [p|] eqn:E.
  - exists p. split; [reflexivity|]. eapply a_fits; eassumption.
  - apply nth_error_None in E. rewrite <- (a_len _ _ _ IA) in E. apply nth_error_None in E. congruence.
Qed.

Lemma ph_of : forall me l w i p, winvA me l w -> nth_error (sy_thr (w_tsm w)) i = Some p ->
  exists x, nth_error (w_ph w) i = Some x /\ fits (w_in w) x p.
Proof.
  intros me l w i p IA N. destruct (nth_error (w_ph w) i) as [x|] eqn:E.
  - exists x. split; [reflexivity|]. eapply a_fits; eassumption.
  - apply nth_error_None in E. rewrite (a_len _ _ _ IA) in E. apply nth_error_None in E. congruence.
Qed.

Lemma delivery_in : forall l id p, delivery l = Some (id, p) -> In (ModelClient.EDeliver id p) l.
Proof.
  induction l as [|e l IH]; intros id p H; [discriminate|]. destruct e; cbn in *; auto.
  injection H as -> ->. auto.
Qed.

Lemma wstep_spawn : forall me l w w', winvA me l w -> winvB w ->
  wexec me w WSpawn = Some w' -> winvA me (l ++ [WSpawn]) w' /\ winvB w'.
Proof.
  intros me l w w' IA IB H. destruct (winvA_inv _ _ _ IA) as (I1 & _ & _).
  unfold wexec in H. destruct (w_dead w); [discriminate|].
  destruct (exec (w_tsm w) ASpawn) as [s|] eqn:E; [|discriminate]. injection H as <-.
  assert (s = set_thr (w_tsm w) (sy_thr (w_tsm w) ++ [PIdle])) as Es.
  { unfold exec in E. destruct (sy_crash (w_tsm w)); [discriminate|]. injection E as <-. reflexivity. }
  assert (forall j (x' : phase), nth_error (w_ph w ++ [NFree]) j = Some x' ->
     nth_error (w_ph w) j = Some x' /\ (j < length (w_ph w))%nat \/
     (j = length (w_ph w) /\ x' = NFree)) as Q.
  { intros j x' N. destruct (Nat.lt_ge_cases j (length (w_ph w))) as [Lt|Ge].
    - rewrite nth_error_app1 in N by exact Lt. auto.
    - rewrite nth_error_app2 in N by exact Ge. right.
      destruct (j - length (w_ph w))%nat as [|m] eqn:Em; cbn in N.
      + injection N as <-. split; [lia|reflexivity].
      + destruct m; discriminate. }
  split.
  - eapply (stepA me l WSpawn w _ []); cbn [w_tsm w_ph w_in w_done]; try exact IA.
    + eapply tsm_more; [exact IA|exact E|reflexivity].
    + now rewrite app_nil_r.
    + intros x [].
    + auto.
    + rewrite Es. fields. rewrite !app_length, (a_len _ _ _ IA). reflexivity.
    + intros j x' N. rewrite Es. fields. destruct (Q j x' N) as [[N1 Lt]|[-> ->]].
      * left. split; [exact N1|]. rewrite nth_error_app1; [reflexivity|].
        rewrite <- (a_len _ _ _ IA). exact Lt.
      * right. split; [exact I|]. intros p Np. cbn [fits].
        rewrite (a_len _ _ _ IA), nth_error_app2 in Np by apply Nat.le_refl.
        rewrite Nat.sub_diag in Np. cbn in Np. congruence.
  - eapply (stepB w); cbn [w_tsm w_ph]; try assumption; rewrite ?Es; fields; try reflexivity.
    + rewrite app_length. lia.
    + intros j x' N. destruct (Q j x' N) as [[N1 Lt]|[-> ->]]; [left; eauto|].
      right. split; [reflexivity|]. apply nth_error_None. apply Nat.le_refl.
    + auto.
Qed.

Lemma wstep_call : forall me l w w' i rq, winvA me l w -> winvB w ->
  wexec me w (WCall i rq) = Some w' -> winvA me (l ++ [WCall i rq]) w' /\ winvB w'.
Proof.
  intros me l w w' i rq IA IB H. destruct (winvA_inv _ _ _ IA) as (I1 & _ & _).
  unfold wexec in H. destruct (w_dead w); [discriminate|].
  destruct (nth_error (w_ph w) i) as [[]|] eqn:N; try discriminate.
  destruct (exec (w_tsm w) _) as [s|] eqn:E; [|discriminate]. injection H as <-.
  destruct (exec_call _ _ _ _ E) as [Np Es].
  eapply (step_one me l _ w _ [] i NFree (NId rq) PIdle IDSpace); cbn [w_tsm w_ph w_in w_done with_ph with_tsm];
    try eassumption; try reflexivity; rewrite ?Es; fields; try reflexivity; auto.
  - rewrite <- Es. eapply tsm_more; [exact IA|exact E|reflexivity].
  - now rewrite app_nil_r.
  - intros x [].
Qed.

Lemma wstep_arrive : forall me l w w' i src b, winvA me l w -> winvB w ->
  wexec me w (WArrive i src b) = Some w' -> winvA me (l ++ [WArrive i src b]) w' /\ winvB w'.
Proof.
  intros me l w w' i src b IA IB H. destruct (winvA_inv _ _ _ IA) as (I1 & _ & _).
  unfold wexec in H. destruct (w_dead w) eqn:Dd; [discriminate|].
  destruct (nth_error (w_ph w) i) as [[]|] eqn:N; try discriminate.
  destruct (handleMsg (fun _ => true) src b) as [eff pan] eqn:Hm.
  destruct (delivery eff) as [[id p]|] eqn:De.
  - destruct (exec (w_tsm w) _) as [s|] eqn:E; [|discriminate]. injection H as <-.
    destruct (exec_call _ _ _ _ E) as [Np Es].
    eapply (step_one me l _ w _ [mkArr src b id p] i NFree (NHandle (length (w_in w))) PIdle _);
      cbn [w_tsm w_ph w_in w_done];
      try eassumption; try reflexivity; rewrite ?Es; fields; try reflexivity; auto.
    + rewrite <- Es. eapply tsm_more; [exact IA|exact E|reflexivity].
    + intros x [<-|[]]. split; cbn [ar_src ar_bytes ar_id ar_load].
      * exists i. apply in_app_iff. right. left. reflexivity.
      * rewrite Hm. cbn [fst]. apply delivery_in. exact De.
    + cbn [fits]. eexists. split.
      * rewrite nth_error_app2 by apply Nat.le_refl. rewrite Nat.sub_diag. reflexivity.
      * cbn. auto.
  - destruct (sy_crash (w_tsm w)); [discriminate|]. injection H as <-.
    assert (winvA me (l ++ [WArrive i src b]) w) as Q.
    { eapply (stepA me l _ w w []); try exact IA; auto.
      - eapply tsm_same. exact IA.
      - now rewrite app_nil_r.
      - intros x [].
      - apply (a_len _ _ _ IA). }
    destruct pan; [|auto].
    split.
    + destruct Q. constructor; assumption.
    + destruct IB. constructor; assumption.
Qed.

Lemma wstep_tx : forall me l w w' i ok, winvA me l w -> winvB w ->
  wexec me w (WTx i ok) = Some w' -> winvA me (l ++ [WTx i ok]) w' /\ winvB w'.
Proof.
  intros me l w w' i ok IA IB H. destruct (winvA_inv _ _ _ IA) as (I1 & _ & _).
  assert (fresh_run (l ++ [WTx i ok]) -> fresh_run l) as Fr by (intros Q; apply fresh_app in Q; tauto).
  unfold wexec in H. destruct (w_dead w) eqn:Dd; [discriminate|].
  destruct (nth_error (w_ph w) i) as [[| |rq id g h tr [r|d k]| | | |]|] eqn:N; try discriminate.
  pose proof (a_hist _ _ _ IA _ _ N) as [Hf Hh]. 
  destruct (hist_list_mono _ (fresh_run (l ++ [WTx i ok])) _ [] _ _ Fr Hh) as [Hh' Hm].
  rewrite app_nil_r in Hh', Hm.
  destruct ok.
  - destruct (exec (w_tsm w) _) as [s|] eqn:E; [|discriminate]. injection H as <-.
    destruct (exec_call _ _ _ _ E) as [Np Es].
    eapply (step_one me l _ w _ [] i _ (NRecv rq id g h (tr ++ [d]) k) PIdle _);
      cbn [w_tsm w_ph w_in w_done with_ph with_tsm];
      try eassumption; try reflexivity; rewrite ?Es; fields; try reflexivity; auto.
    + rewrite <- Es. eapply tsm_more; [exact IA|exact E|reflexivity].
    + now rewrite app_nil_r.
    + intros x [].
    + cbn [hist_ok]. split; [|exact Hh']. exists tr, d. auto.
  - destruct (sy_crash (w_tsm w)); [discriminate|]. injection H as <-.
    destruct (pc_of _ _ _ _ _ IA N) as (p & Np & Fp). cbn [fits] in Fp. subst p.
    eapply (step_one me l _ w _ [] i _ _ PIdle PIdle);
      cbn [w_tsm w_ph w_in w_done with_ph with_tsm];
      try eassumption; try reflexivity; auto.
    + clear - Np. revert i Np. generalize (sy_thr (w_tsm w)).
      induction l as [|a l IH]; intros [|i] Np; cbn in *; try discriminate.
      * injection Np as ->. reflexivity.
      * now rewrite <- (IH i Np).
    + eapply tsm_same. exact IA.
    + now rewrite app_nil_r.
    + intros x [].
    + cbn [hist_ok]. split.
      * rewrite map_app. cbn [map told]. apply feed_snoc. exact Hf.
      * apply Forall_app. split; [exact Hh'|]. constructor; [left; reflexivity|constructor].
Qed.

Lemma wstep_ret : forall me l w w' i, winvA me l w -> winvB w ->
  wexec me w (WRet i) = Some w' -> winvA me (l ++ [WRet i]) w' /\ winvB w'.
Proof.
  intros me l w w' i IA IB H. destruct (winvA_inv _ _ _ IA) as (I1 & _ & _).
  assert (fresh_run (l ++ [WRet i]) -> fresh_run l) as Fr by (intros Q; apply fresh_app in Q; tauto).
  unfold wexec in H. destruct (w_dead w) eqn:Dd; [discriminate|].
  destruct (nth_error (w_ph w) i) as [[| |rq id g h tr [r|d k]| | | |]|] eqn:N; try discriminate.
  pose proof (a_hist _ _ _ IA _ _ N) as [Hf Hh]. 
  destruct (hist_list_mono _ (fresh_run (l ++ [WRet i])) _ [] _ _ Fr Hh) as [Hh' Hm].
  rewrite app_nil_r in Hh', Hm.
  assert (winvA me (l ++ [WRet i]) w) as Q.
  { eapply (stepA me l _ w w []); try exact IA; auto.
    - eapply tsm_same. exact IA.
    - now rewrite app_nil_r.
    - intros x [].
    - apply (a_len _ _ _ IA). }
  assert (forall s, exec (w_tsm w) (ACall i (CallPut id)) = Some s ->
    winvA me (l ++ [WRet i]) (with_ph (with_tsm w s) i (NPut rq id g h tr r)) /\
    winvB (with_ph (with_tsm w s) i (NPut rq id g h tr r))) as G.
  { intros s E. destruct (exec_call _ _ _ _ E) as [Np Es].
    eapply (step_one me l _ w _ [] i _ (NPut rq id g h tr r) PIdle _);
      cbn [w_tsm w_ph w_in w_done with_ph with_tsm];
      try eassumption; try reflexivity; rewrite ?Es; fields; try reflexivity; auto.
    + rewrite <- Es. eapply tsm_more; [exact IA|exact E|reflexivity].
    + now rewrite app_nil_r.
    + intros x [].
    + cbn [hist_ok]. auto. }
  destruct r; try discriminate;
    try (destruct (exec (w_tsm w) _) as [s|] eqn:E; [|discriminate]; injection H as <-; auto).
  destruct (sy_crash (w_tsm w)); [discriminate|]. injection H as <-.
  split; [destruct Q; constructor; assumption|destruct IB; constructor; assumption].
Qed.

Lemma upd_self : forall A (l : list A) i x, nth_error l i = Some x -> upd l i x = l.
Proof.
  induction l as [|a l IH]; intros [|i] x H; cbn in *; try discriminate.
  - congruence.
  - now rewrite (IH i x H).
Qed.

Lemma kill_inv : forall me l w, winvA me l w /\ winvB w -> winvA me l (kill w) /\ winvB (kill w).
Proof. intros me l w [[] []]. split; constructor; assumption. Qed.

Lemma start_none : forall me rq, start me rq None = PRet (CErr CNoId).
Proof. intros me []; reflexivity. Qed.

Lemma table_key : forall s id o g o' g', inv1 s -> In (id, (o, g)) (sy_table s) ->
  lookup id (sy_table s) = Some (o', g') -> g' = g.
Proof.
  intros s id o g o' g' I H L. rewrite (in_lookup _ _ _ (i_keys s I) H) in L. congruence.
Qed.

Lemma fits_move : forall me l w i x p p', winvA me l w -> winvB w ->
  nth_error (w_ph w) i = Some x -> fits (w_in w) x p -> moves (w_tsm w) p p' ->
  fits (w_in w) x p'.
Proof.
  intros me l w i x p p' IA IB N F M. destruct (winvA_inv _ _ _ IA) as (I1 & _ & _).
  destruct M; destruct x; cbn [fits] in *; try discriminate F; try contradiction F;
    try (destruct F as (a & Fa & []); fail); auto.
  - subst. split; [reflexivity|]. destruct (b_own _ IB _ _ _ _ N eq_refl) as (o' & T).
    eapply table_key; eassumption.
  - subst. split; [reflexivity|]. destruct (b_own _ IB _ _ _ _ N eq_refl) as (o' & T).
    eapply table_key; eassumption.
Qed.

(** A waiting call's channel is open. *)
Lemma waiting_open : forall me l w i rq id g h tr k c, winvA me l w -> winvB w ->
  nth_error (w_ph w) i = Some (NRecv rq id g h tr k) ->
  nth_error (sy_thr (w_tsm w)) i = Some (RecvWait id (Some c) g) ->
  closed (w_tsm w) c = false.
Proof.
  intros me l w i rq id g h tr k c IA IB N T. destruct (winvA_inv _ _ _ IA) as (I1 & I2 & I3).
  assert (forall k, ~ In (EClosed k id g) (sy_log (w_tsm w))) as C.
  { intros k0. eapply b_open; [exact IB|exact N|reflexivity|reflexivity]. }
  destruct (k_found _ I3 _ _ _ _ _ T eq_refl) as [_ [(o & H & D)|(k0 & Q)]];
    [|exfalso; eapply C; exact Q].
  destruct (j_open _ I2 _ _ _ H) as [(c1 & E1 & E2)|(j & p & E1 & E2)]; [congruence|].
  destruct (j_close _ I2 _ _ _ _ _ E1 E2) as [k0 Q]. exfalso. eapply C; exact Q.
Qed.

(** the part of the invariant used for one step of the manager *)
Ltac one :=
  cbn [w_tsm w_ph w_in w_done with_ph with_tsm with_done];
  try eassumption; try reflexivity; auto.

Lemma log_grows : forall A (e : A) l, Nat.eqb (length (e :: l)) (length l) = false.
Proof. intros. apply Nat.eqb_neq. cbn [length]. lia. Qed.

Lemma wstep_end : forall me l w s a i p p' e,
  winvA me l w -> winvB w -> exec (w_tsm w) a = Some s -> inside a = true ->
  nth_error (sy_thr (w_tsm w)) i = Some p -> ends (w_tsm w) i p p' e ->
  sy_thr s = upd (sy_thr (w_tsm w)) i p' -> sy_table s = sy_table (w_tsm w) ->
  sy_gen s = sy_gen (w_tsm w) -> sy_log s = e :: sy_log (w_tsm w) ->
  winvA me (l ++ [WTsm a]) (returned me (with_tsm w s) e) /\
  winvB (returned me (with_tsm w s) e).
Proof.
  intros me l w s a i p p' e IA IB E Ia Np En Th Tab Gen Log.
  destruct (winvA_inv _ _ _ IA) as (I1 & I2 & I3).
  assert (fresh_run (l ++ [WTsm a]) -> fresh_run l) as Fr by (intros Q; apply fresh_app in Q; tauto).
  assert (reuses a = recycles (WTsm a)) as Ra by (destruct a as [| | | |? []| |]; reflexivity).
  pose proof (tsm_more me l (WTsm a) w s a IA E Ra) as TM.
  destruct (ph_of _ _ _ _ _ IA Np) as (x & N & F).
  destruct En; cbn [returned]; cbn [with_tsm w_ph] in *.
  - destruct x; cbn [fits] in F; try discriminate F; try contradiction F;
      try (destruct F as (q & Fa & []); fail). rewrite N, start_none.
    eapply (step_one me l _ w _ [] i (NId rq) NFree _ PIdle); one.
    + now rewrite app_nil_r.
    + intros f [].
    + intros f [<-|Hf]; [right|auto]. cbn. rewrite start_none. auto.
    + intros k id g. rewrite Log. intros [Q|Q]; [discriminate|auto].
  - destruct x; cbn [fits] in F; try discriminate F; try contradiction F;
      try (destruct F as (q & Fa & []); fail). rewrite N, start_none.
    eapply (step_one me l _ w _ [] i (NId rq) NFree _ PIdle); one.
    + now rewrite app_nil_r.
    + intros f [].
    + intros f [<-|Hf]; [right|auto]. cbn. rewrite start_none. auto.
    + intros k id g. rewrite Log. intros [Q|Q]; [discriminate|auto].
  - exfalso. destruct x; cbn [fits] in F; try discriminate F; try contradiction F;
      try (destruct F as (q & Fa & []); fail). subst.
    destruct (b_own _ IB _ _ _ _ N eq_refl) as (o & T).
    rewrite (in_lookup _ _ _ (i_keys _ I1) T) in H. discriminate.
  - destruct x; cbn [fits] in F; try discriminate F; try contradiction F;
      try (destruct F as (q & Fa & []); fail). destruct F as [-> ->].
    eapply (step_one me l _ w _ [] i _ _ _ _); one.
    + symmetry. apply upd_self. exact N.
    + now rewrite app_nil_r.
    + intros f [].
    + eapply hist_mono with (e := []) in Fr; [|eapply a_hist; [exact IA|exact N]].
      rewrite app_nil_r in Fr. exact Fr.
    + cbn [fits]. auto.
    + intros k id1 g1. rewrite Log. intros [Q|Q]; [|auto]. injection Q as -> -> ->. right. auto.
  - destruct x; cbn [fits] in F; try discriminate F; try contradiction F.
    destruct F as (q & Fa & -> & ->).
    eapply (step_one me l _ w _ [] i _ _ _ _); one.
    + symmetry. apply upd_self. exact N.
    + now rewrite app_nil_r.
    + intros f [].
    + cbn [fits]. exists q. auto.
    + intros k id1 g1. rewrite Log. intros [Q|Q]; [discriminate|auto].
  - destruct x; cbn [fits] in F; try discriminate F; try contradiction F.
    destruct F as (q & Fa & -> & ->). rewrite N. unfold handled. cbn [with_ph with_tsm w_in].
    rewrite Fa.
    assert (winvA me (l ++ [WTsm a]) (with_ph (with_tsm w s) i NFree) /\
            winvB (with_ph (with_tsm w s) i NFree)) as Q.
    { eapply (step_one me l _ w _ [] i _ NFree _ _); one.
      + now rewrite app_nil_r.
      + intros f [].
      + intros k id1 g1. rewrite Log. intros [Q|Q]; [discriminate|auto]. }
    destruct (snd _); [apply kill_inv|]; exact Q.
  - exfalso. destruct x; cbn [fits] in F; try discriminate F; try contradiction F;
      try (destruct F as (q & Fa & []); fail). destruct F as [-> ->].
    rewrite (waiting_open _ _ _ _ _ _ _ _ _ _ _ IA IB N Np) in H. discriminate.
  - destruct x; cbn [fits] in F; try discriminate F; try contradiction F;
      try (destruct F as (q & Fa & []); fail). destruct F as [-> ->].
    unfold received. cbn [with_tsm w_ph]. rewrite N.
    pose proof (a_hist _ _ _ IA _ _ N) as [(tr0 & d & Etr & Hf) Hh].
    destruct (hist_list_mono _ (fresh_run (l ++ [WTsm a])) _ [] _ _ Fr Hh) as [Hh' Hm].
    rewrite app_nil_r in Hh', Hm.
    eapply (step_one me l _ w _ [] i _ _ _ PIdle); one.
    + now rewrite app_nil_r.
    + intros f [].
    + cbn [hist_ok]. split.
      * rewrite map_app, Etr. cbn [map told]. apply feed_snoc. exact Hf.
      * apply Forall_app. split; [exact Hh'|]. constructor; [right; reflexivity|constructor].
    + intros k1 id1 g1. rewrite Log. intros [Q|Q]; [discriminate|auto].
  - exfalso. destruct x; cbn [fits] in F; try discriminate F; try contradiction F;
      try (destruct F as (q & Fa & []); fail). subst.
    destruct (b_own _ IB _ _ _ _ N eq_refl) as (o & T).
    rewrite (in_lookup _ _ _ (i_keys _ I1) T) in H. discriminate.
Qed.

Lemma wstep_got : forall me l w s a i id o,
  winvA me l w -> winvB w -> exec (w_tsm w) a = Some s ->
  nth_error (sy_thr (w_tsm w)) i = Some (IDLock id o) -> sy_lock (w_tsm w) = None ->
  sy_thr s = upd (sy_thr (w_tsm w)) i PIdle ->
  sy_table s = (id, (o, sy_gen (w_tsm w))) :: without id (sy_table (w_tsm w)) ->
  sy_gen s = S (sy_gen (w_tsm w)) ->
  sy_log s = EGot i id o (sy_gen (w_tsm w)) :: sy_log (w_tsm w) ->
  winvA me (l ++ [WTsm a]) (returned me (with_tsm w s) (EGot i id o (sy_gen (w_tsm w)))) /\
  winvB (returned me (with_tsm w s) (EGot i id o (sy_gen (w_tsm w)))).
Proof.
  intros me l w s a i id o IA IB E Np Lk Th Tab Gen Log.
  destruct (winvA_inv _ _ _ IA) as (I1 & I2 & I3).
  assert (reuses a = recycles (WTsm a)) as Ra by (destruct a as [| | | |? []| |]; reflexivity).
  pose proof (tsm_more me l (WTsm a) w s a IA E Ra) as TM.
  destruct (ph_of _ _ _ _ _ IA Np) as (x & N & F).
  destruct x; cbn [fits] in F; try discriminate F; try contradiction F;
    try (destruct F as (q & Fa & []); fail).
  assert (~ In id (map fst (sy_table (w_tsm w)))) as Ab
    by (eapply handing_absent; [exact I1|exact Lk|exact Np|reflexivity]).
  rewrite (without_absent _ _ Ab) in Tab.
  set (g := sy_gen (w_tsm w)) in *.
  cbn [returned with_tsm w_ph]. rewrite N. split.
  - eapply (stepA me l (WTsm a) w _ []); cbn [with_ph with_tsm w_tsm w_ph w_in w_done]; try exact IA; auto.
    + now rewrite app_nil_r.
    + intros f [].
    + rewrite Th, !upd_length. apply (a_len _ _ _ IA).
    + intros j y Ny. rewrite Th. destruct (upd_inv _ _ _ _ _ _ Ny) as [[-> ->]|[D Nj]].
      * right. split; [cbn [hist_ok]; split; [reflexivity|constructor]|].
        intros q Nq. rewrite (upd_same _ _ _ _ _ Np) in Nq. injection Nq as <-. reflexivity.
      * left. split; [exact Nj|]. apply upd_other. auto.
  - assert (forall j y, nth_error (upd (w_ph w) i (NRun rq id g [] [] (start me rq (Some id)))) j = Some y ->
      (j = i /\ owns y = Some (id, g)) \/ (j <> i /\ nth_error (w_ph w) j = Some y)) as Q.
    { intros j y Ny. destruct (upd_inv _ _ _ _ _ _ Ny) as [[-> ->]|[D Nj]]; [left|right]; auto. }
    assert (forall j y g', nth_error (w_ph w) j = Some y -> owns y <> Some (id, g')) as NO.
    { intros j y g' Ny W. destruct (b_own _ IB _ _ _ _ Ny W) as (o' & T). apply Ab.
      change id with (fst (id, (o', g'))). apply in_map. exact T. }
    constructor; cbn [with_ph w_tsm w_ph with_tsm].
    + intros j y id1 g1 Ny W. rewrite Tab. destruct (Q j y Ny) as [[-> W1]|[D Nj]].
      * rewrite W1 in W. injection W as <- <-. exists o. left. reflexivity.
      * destruct (b_own _ IB _ _ _ _ Nj W) as (o1 & T). exists o1. right. exact T.
    + intros j k y z id1 g1 g2 Ny Nz Wy Wz.
      destruct (Q j y Ny) as [[-> W1]|[D Nj]]; destruct (Q k z Nz) as [[-> W2]|[D' Nk]]; auto.
      * rewrite W1 in Wy. injection Wy as <- <-. exfalso. eapply NO; eassumption.
      * rewrite W2 in Wz. injection Wz as <- <-. exfalso. eapply NO; eassumption.
      * eapply (b_uniq _ IB); eassumption.
    + intros id1 o1 g1. rewrite Tab. intros [H|H].
      * injection H as <- <- <-. exists i. eexists.
        split; [eapply upd_same; exact N|reflexivity].
      * destruct (b_all _ IB _ _ _ H) as (j & y & Ny & W). exists j, y. split; [|exact W].
        rewrite upd_other; [exact Ny|]. intros <-. rewrite N in Ny. injection Ny as <-. discriminate W.
    + intros id1 o1 g1. rewrite Tab, Gen. intros [H|H].
      * injection H as <- <- <-. auto.
      * pose proof (b_gen _ IB _ _ _ H). fold g in H0. lia.
    + intros k id1 g1. rewrite Log, Gen. intros [H|H]; [discriminate|].
      pose proof (b_cgen _ IB _ _ _ H). fold g in H0. lia.
    + intros j y id1 g1 k Ny W Ru. rewrite Log. intros [H|H]; [discriminate|].
      destruct (Q j y Ny) as [[-> W1]|[D Nj]].
      * rewrite W1 in W. injection W as <- <-. pose proof (b_cgen _ IB _ _ _ H). fold g in H0. lia.
      * eapply (b_open _ IB); eassumption.
Qed.

Lemma wstep_put : forall me l w s a i id o g,
  winvA me l w -> winvB w -> exec (w_tsm w) a = Some s ->
  nth_error (sy_thr (w_tsm w)) i = Some (PutDel id o g) ->
  sy_thr s = upd (sy_thr (w_tsm w)) i PIdle ->
  sy_table s = without id (sy_table (w_tsm w)) -> sy_gen s = sy_gen (w_tsm w) ->
  sy_log s = EPut i id g :: sy_log (w_tsm w) ->
  winvA me (l ++ [WTsm a]) (returned me (with_tsm w s) (EPut i id g)) /\
  winvB (returned me (with_tsm w s) (EPut i id g)).
Proof.
  intros me l w s a i id o g IA IB E Np Th Tab Gen Log.
  destruct (winvA_inv _ _ _ IA) as (I1 & I2 & I3).
  assert (fresh_run (l ++ [WTsm a]) -> fresh_run l) as Fr by (intros Q; apply fresh_app in Q; tauto).
  assert (reuses a = recycles (WTsm a)) as Ra by (destruct a as [| | | |? []| |]; reflexivity).
  pose proof (tsm_more me l (WTsm a) w s a IA E Ra) as TM.
  destruct (ph_of _ _ _ _ _ IA Np) as (x & N & F).
  destruct x; cbn [fits] in F; try discriminate F; try contradiction F;
    try (destruct F as (q & Fa & []); fail).
  destruct F as [<- <-].
  pose proof (a_hist _ _ _ IA _ _ N) as [Hf Hh].
  destruct (hist_list_mono _ (fresh_run (l ++ [WTsm a])) _ [] _ _ Fr Hh) as [Hh' Hm].
  rewrite app_nil_r in Hh', Hm.
  cbn [returned with_tsm w_ph]. rewrite N. split.
  - eapply (stepA me l (WTsm a) w _ []); cbn [with_ph with_tsm with_done w_tsm w_ph w_in w_done]; try exact IA; auto.
    + now rewrite app_nil_r.
    + intros f [].
    + intros f [<-|Hf1]; [right|auto]. cbn [done_ok fi_id fi_req fi_hist fi_sent fi_result]. auto.
    + rewrite Th, !upd_length. apply (a_len _ _ _ IA).
    + intros j y Ny. rewrite Th. destruct (upd_inv _ _ _ _ _ _ Ny) as [[-> ->]|[D Nj]].
      * right. split; [exact I|].
        intros q Nq. rewrite (upd_same _ _ _ _ _ Np) in Nq. injection Nq as <-. reflexivity.
      * left. split; [exact Nj|]. apply upd_other. auto.
  - assert (forall j y id1 g1, nth_error (upd (w_ph w) i NFree) j = Some y -> owns y = Some (id1, g1) ->
      j <> i /\ nth_error (w_ph w) j = Some y) as Q.
    { intros j y id1 g1 Ny W. destruct (upd_inv _ _ _ _ _ _ Ny) as [[-> ->]|[D Nj]]; [discriminate|auto]. }
    constructor; cbn [with_ph with_done w_tsm w_ph with_tsm].
    + intros j y id1 g1 Ny W. rewrite Tab. destruct (Q j y id1 g1 Ny W) as [D Nj].
      destruct (b_own _ IB _ _ _ _ Nj W) as (o1 & T). exists o1. apply without_keep; [exact T|].
      cbn [fst]. intros ->. apply D. symmetry. eapply (b_uniq _ IB); [exact N|exact Nj|reflexivity|exact W].
    + intros j k y z id1 g1 g2 Ny Nz Wy Wz.
      destruct (Q _ _ _ _ Ny Wy) as [D Nj]; destruct (Q _ _ _ _ Nz Wz) as [D' Nk].
      eapply (b_uniq _ IB); eassumption.
    + intros id1 o1 g1. rewrite Tab. intros H. apply without_in in H. destruct H as [H D].
      destruct (b_all _ IB _ _ _ H) as (j & y & Ny & W). exists j, y. split; [|exact W].
      rewrite upd_other; [exact Ny|]. intros <-. rewrite N in Ny. injection Ny as <-. cbn in W.
      injection W as -> ->. apply D. reflexivity.
    + intros id1 o1 g1. rewrite Tab, Gen. intros H. apply without_in in H. destruct H as [H D].
      eapply (b_gen _ IB); exact H.
    + intros k id1 g1. rewrite Log, Gen. intros [H|H]; [discriminate|]. eapply (b_cgen _ IB); exact H.
    + intros j y id1 g1 k Ny W Ru. rewrite Log. intros [H|H]; [discriminate|].
      destruct (Q _ _ _ _ Ny W) as [D Nj]. eapply (b_open _ IB); eassumption.
Qed.

Lemma wstep_deliver : forall me l w s a i j sid v c sg rid rg,
  winvA me l w -> winvB w -> exec (w_tsm w) a = Some s -> i <> j ->
  nth_error (sy_thr (w_tsm w)) i = Some (SendWait sid v (Some c) sg) ->
  nth_error (sy_thr (w_tsm w)) j = Some (RecvWait rid (Some c) rg) ->
  sy_thr s = upd (upd (sy_thr (w_tsm w)) i PIdle) j PIdle -> sy_table s = sy_table (w_tsm w) ->
  sy_gen s = sy_gen (w_tsm w) ->
  sy_log s = ModelTsm.EDeliver i sid sg j rid rg v :: sy_log (w_tsm w) ->
  winvA me (l ++ [WTsm a]) (returned me (with_tsm w s) (ModelTsm.EDeliver i sid sg j rid rg v)) /\
  winvB (returned me (with_tsm w s) (ModelTsm.EDeliver i sid sg j rid rg v)).
Proof.
  intros me l w s a i j sid v c sg rid rg IA IB E D Np Nq Th Tab Gen Log.
  destruct (winvA_inv _ _ _ IA) as (I1 & I2 & I3).
  assert (fresh_run (l ++ [WTsm a]) -> fresh_run l) as Fr by (intros Q; apply fresh_app in Q; tauto).
  assert (reuses a = recycles (WTsm a)) as Ra by (destruct a as [| | | |? []| |]; reflexivity).
  pose proof (tsm_more me l (WTsm a) w s a IA E Ra) as TM.
  assert (fresh_run (l ++ [WTsm a]) -> sid = rid) as Same.
  { intros Q. destruct TM as (tl & R & Z). specialize (Z Q).
    eapply (no_reuse_same _ _ _ R Z i sid sg j rid rg v). rewrite Log. left. reflexivity. }
  destruct (ph_of _ _ _ _ _ IA Np) as (x & N & F).
  destruct x; cbn [fits] in F; try discriminate F; try contradiction F.
  destruct F as (q & Fa & -> & ->).
  destruct (ph_of _ _ _ _ _ IA Nq) as (x & N2 & F2).
  destruct x; cbn [fits] in F2; try discriminate F2; try contradiction F2;
    try (destruct F2 as (q2 & Fa2 & []); fail).
  destruct F2 as [<- <-].
  pose proof (a_hist _ _ _ IA _ _ N2) as [(tr0 & d & Etr & Hf) Hh].
  destruct (hist_list_mono _ (fresh_run (l ++ [WTsm a])) _ [] _ _ Fr Hh) as [Hh' Hm].
  rewrite app_nil_r in Hh', Hm.
  cbn [returned]. unfold received. cbn [with_tsm w_ph]. rewrite N2, Nat2Z.id.
  cbn [with_ph with_tsm w_ph]. rewrite upd_other by auto. rewrite N. unfold handled.
  cbn [with_ph w_in with_tsm]. rewrite Fa.
  match goal with |- context [if ?b then kill ?w1 else _] =>
    assert (winvA me (l ++ [WTsm a]) w1 /\ winvB w1) as Q;
    [|destruct b; [apply kill_inv|]; exact Q] end.
  split.
  - eapply (stepA me l (WTsm a) w _ []); cbn [with_ph with_tsm w_tsm w_ph w_in w_done]; try exact IA; auto.
    + now rewrite app_nil_r.
    + intros f [].
    + rewrite Th, !upd_length. apply (a_len _ _ _ IA).
    + intros k0 y Ny. rewrite Th. destruct (upd_inv _ _ _ _ _ _ Ny) as [[-> ->]|[D1 Nk]].
      * right. split; [exact I|]. intros p Npp. rewrite upd_other in Npp by auto.
        rewrite (upd_same _ _ _ _ _ Np) in Npp. injection Npp as <-. reflexivity.
      * destruct (upd_inv _ _ _ _ _ _ Nk) as [[-> ->]|[D2 Nk2]].
        -- right. split.
           ++ cbn [hist_ok]. split.
              ** rewrite map_app, Etr. cbn [map told]. unfold load_of. cbn [with_tsm w_in].
                 apply feed_snoc. exact Hf.
              ** apply Forall_app. split; [exact Hh'|]. constructor; [|constructor].
                 cbn [reply_ok]. exists q. auto.
           ++ intros p Npp. rewrite (upd_same _ _ j PIdle _ (eq_trans (upd_other _ _ _ _ _ D) Nq)) in Npp.
              injection Npp as <-. reflexivity.
        -- left. split; [exact Nk2|]. rewrite !upd_other by auto. reflexivity.
  - eapply (stepB w); cbn [with_ph with_tsm w_tsm w_ph]; try assumption.
    + rewrite !upd_length. apply Nat.le_refl.
    + intros k0 y Ny. left. destruct (upd_inv _ _ _ _ _ _ Ny) as [[-> ->]|[D1 Nk]]; [eauto|].
      destruct (upd_inv _ _ _ _ _ _ Nk) as [[-> ->]|[D2 Nk2]]; eauto.
    + intros k0 id1 g1. rewrite Log. intros [Q|Q]; [discriminate|auto].
Qed.

Lemma wstep : forall me l w a w', winvA me l w -> winvB w -> wexec me w a = Some w' ->
  winvA me (l ++ [a]) w' /\ winvB w'.
Proof.
  intros me l w a w' IA IB H.
  destruct a as [|i rq|i src b|i ok|i|a];
    [eapply wstep_spawn|eapply wstep_call|eapply wstep_arrive|eapply wstep_tx|eapply wstep_ret|];
    try eassumption.
  unfold wexec in H. destruct (w_dead w); [discriminate|].
  destruct (inside a) eqn:Ia; [|discriminate].
  destruct (exec (w_tsm w) a) as [s|] eqn:E; [|discriminate].
  destruct (winvA_inv _ _ _ IA) as (I1 & I2 & I3).
  assert (fresh_run (l ++ [WTsm a]) -> fresh_run l) as Fr by (intros Q; apply fresh_app in Q; tauto).
  assert (reuses a = recycles (WTsm a)) as Ra by (destruct a as [| | | |? []| |]; reflexivity).
  pose proof (tsm_more me l (WTsm a) w s a IA E Ra) as TM.
  destruct (inside_tstep _ _ _ Ia E)
    as [Th Tab Gen Log|i p p' Np M Th Tab Gen Log|i p p' e Np En Th Tab Gen Log
       |i id o Np Lk Th Tab Gen Log|i id o g Np Th Tab Gen Log
       |i j sid v c sg rid rg D Np Nq Th Tab Gen Log|i Th Tab Gen Cr Log].
  - rewrite Log, Nat.eqb_refl in H. injection H as <-. split.
    + eapply (stepA me l (WTsm a) w _ []); cbn [with_tsm w_tsm w_ph w_in w_done]; try exact IA; auto.
      * now rewrite app_nil_r.
      * intros f [].
      * rewrite Th. apply (a_len _ _ _ IA).
      * intros j y Ny. left. rewrite Th. auto.
    + eapply (stepB w); cbn [with_tsm w_tsm w_ph]; try assumption.
      * apply Nat.le_refl.
      * intros j y Ny. left. eauto.
      * rewrite Log. auto.
  - rewrite Log, Nat.eqb_refl in H. injection H as <-.
    destruct (ph_of _ _ _ _ _ IA Np) as (x & N & F).
    eapply (step_one me l _ w _ [] i x x _ p'); one.
    + symmetry. apply upd_self. exact N.
    + now rewrite app_nil_r.
    + intros f [].
    + eapply hist_mono with (e := []) in Fr; [|eapply a_hist; [exact IA|exact N]].
      rewrite app_nil_r in Fr. exact Fr.
    + eapply fits_move; eassumption.
    + rewrite Log. auto.
  - rewrite Log, log_grows in H. injection H as <-. eapply wstep_end; eassumption.
  - rewrite Log, log_grows in H. injection H as <-. eapply wstep_got; eassumption.
  - rewrite Log, log_grows in H. injection H as <-. eapply wstep_put; eassumption.
  - rewrite Log, log_grows in H. injection H as <-. eapply wstep_deliver; eassumption.
  - rewrite Log, log_grows in H. injection H as <-. cbn [returned]. split.
    + eapply (stepA me l (WTsm a) w _ []); cbn [with_tsm w_tsm w_ph w_in w_done]; try exact IA; auto.
      * now rewrite app_nil_r.
      * intros f [].
      * rewrite Th. apply (a_len _ _ _ IA).
      * intros j y Ny. left. rewrite Th. auto.
    + eapply (stepB w); cbn [with_tsm w_tsm w_ph]; try assumption.
      * apply Nat.le_refl.
      * intros j y Ny. left. eauto.
      * rewrite Log. intros k id g [Q|Q]; [discriminate|auto].
Qed.

Lemma w_init_inv : forall me, winvA me [] w_init /\ winvB w_init.
Proof.
  intros me. split; constructor; cbn.
  - exists []. auto.
  - reflexivity.
  - intros [|i]; discriminate.
  - intros [|i]; discriminate.
  - intros a [].
  - intros f [].
  - intros [|i]; discriminate.
  - intros [|i]; discriminate.
  - intros id o g [].
  - intros id o g [].
  - intros k id g [].
  - intros [|i]; discriminate.
Qed.

Lemma wrun_inv : forall me l2 l1 w w', winvA me l1 w -> winvB w -> wrun me w l2 = Some w' ->
  winvA me (l1 ++ l2) w' /\ winvB w'.
Proof.
  induction l2 as [|a l2 IH]; intros l1 w w' IA IB H; cbn [wrun] in H.
  - injection H as <-. rewrite app_nil_r. auto.
  - destruct (wexec me w a) as [w1|] eqn:E; [|discriminate].
    destruct (wstep _ _ _ _ _ IA IB E) as [A B].
    change (a :: l2) with ([a] ++ l2). rewrite app_assoc. eapply IH; eassumption.
Qed.

Lemma wreach : forall me l w, wrun me w_init l = Some w -> winvA me l w /\ winvB w.
Proof.
  intros me l w H. destruct (w_init_inv me) as [A B].
  apply (wrun_inv me l [] w_init w A B H).
Qed.
