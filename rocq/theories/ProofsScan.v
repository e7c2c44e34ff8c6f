(** * The discovery calls running together: invariants *)
From Coq Require Import Lia.
From Verif Require Import ModelScan SpecScan SpecRun SpecClient SpecUtsm SpecWire SpecLayers SpecServices ProofsRoute ProofsRun ProofsFind.
From Verif Require Import ModelTsm ModelUtsm ProofsTsm ProofsUtsm ProofsUtsmProps ProofsFate.
Import ListNotations.
Open Scope Z_scope.

(** ** Steps of the manager, goroutine by goroutine *)
Definition pub_key (p : upc) : option (Z * Z) :=
  match p with
  | PubLock id v | PubLoop id v _ | PubSub id v _ _ | PubSend id v _ _ | PubUnlock id v _ _ => Some (id, v)
  | _ => None
  end.

Inductive pcstep (i : nat) : upc -> upc -> option uevent -> Prop :=
| pc_pub : forall p p' k, pub_key p = Some k -> pub_key p' = Some k -> pcstep i p p' None
| pc_enter : forall id v l, pcstep i (PubLock id v) (PubLoop id v l) (Some (UPub i id v))
| pc_pubret : forall id v, pcstep i (PubLoop id v []) UIdle (Some (UPubRet i))
| pc_new : forall lo hi s, pcstep i (SubNew lo hi) (SubReg lo hi s) None
| pc_reg : forall lo hi s, pcstep i (SubReg lo hi s) (SubTime s []) (Some (USub i s lo hi))
| pc_recv : forall p p' s st st', receiving p = Some (s, st) -> receiving p' = Some (s, st') -> pcstep i p p' None
| pc_ret : forall s st, pcstep i (SubRem s st) UIdle (Some (URet i s st)).

Definition log_with (oe : option uevent) (log : list uevent) : list uevent :=
  match oe with Some e => e :: log | None => log end.

Lemma inside_step : forall u a u', y_inside a = true -> uexec u a = Some u' ->
  exists i p p' oe, nth_error (u_thr u) i = Some p /\ nth_error (u_thr u') i = Some p' /\
    (forall j, j <> i -> nth_error (u_thr u') j = nth_error (u_thr u) j) /\
    u_log u' = log_with oe (u_log u) /\ pcstep i p p' oe.
Proof.
  intros u a u' Ha H. destruct a; try discriminate Ha; clear Ha;
    uexec_cases H; exists i; eexists _, _, _; ufields;
    (split; [exact Hth|]); (split; [erewrite upd_same by exact Hth; reflexivity|]);
    (split; [intros j D; apply upd_other; congruence|]).
  all: first [split; [instantiate (1 := None); reflexivity|econstructor; reflexivity] | split; [instantiate (1 := Some _); reflexivity|constructor] |idtac].
  all: split; [instantiate (1 := None); reflexivity|apply pc_new].
Qed.

(** ** Invariants *)
Definition call_returned (w : syst) (i : nat) (q : scan) (s : nat) (store : list Z) : Prop :=
  exists l1 l2 rest, u_log (y_u w) = l1 ++ URet i s store :: l2 /\
    In (USub i s (fst (scan_range q)) (snd (scan_range q))) l2 /\
    meant_for s l2 = Some (fst (scan_range q), snd (scan_range q), store ++ rest) /\ (length rest <= 1)%nat.

Definition sender_ok (t : sender) (err : bool) : Prop :=
  match t with
  | TNot => err = false
  | TSent f => err = true -> f = true
  | TOffer f e => (err = true -> f = true) /\ (e = true -> f = true)
  end.

Definition phase_ok (w : syst) (i : nat) : Prop :=
  match nth_error (y_ph w) i, nth_error (u_thr (y_u w)) i with
  | None, None => True
  | Some YFree, Some UIdle => True
  | Some (YSub q t err), Some p =>
      sender_ok t err /\
      match p with
      | SubNew lo hi | SubReg lo hi _ => scan_range q = (lo, hi)
      | SubTime s _ | SubWait s _ | SubRem s _ =>
          In (USub i s (fst (scan_range q)) (snd (scan_range q))) (u_log (y_u w)) /\
          exists m, meant_for s (u_log (y_u w)) = Some (fst (scan_range q), snd (scan_range q), m)
      | _ => False
      end
  | Some (YTest q s store t err), Some UIdle | Some (YWait q s store t err), Some UIdle =>
      sender_ok t err /\ call_returned w i q s store
  | Some (YHandle ((k, x) :: _) _), Some p =>
      exists v, pub_key p = Some (k, v) /\ 0 <= v /\ nth_error (y_pubs w) (Z.to_nat v) = Some (k, x)
  | _, _ => False
  end.

Record yinv (seen : list (Z * pub)) (w : syst) : Prop := {
  y_reach : ureachable (y_u w);
  y_phs : forall i, phase_ok w i;
  y_logged : forall i k v, In (UPub i k v) (u_log (y_u w)) -> 0 <= v /\ exists x, nth_error (y_pubs w) (Z.to_nat v) = Some (k, x);
  y_seen : forall m, In m (y_pubs w) -> In m seen;
  y_coming : forall i ps b, nth_error (y_ph w) i = Some (YHandle ps b) -> forall m, In m ps -> In m seen;
  y_fin : forall f, In f (y_done w) -> call_returned w (sd_thread f) (sd_req f) (sd_sub f) (sd_store f) /\
      (sd_result f = XErr /\ scan_stops (sd_req f) = true /\ sd_failed f = true \/
       sd_result f = scan_result (sd_req f) (y_values w (sd_store f)))
}.

Lemma y_init_inv : yinv [] y_init.
Proof.
  constructor; cbn.
  - exists []. reflexivity.
  - intros [|i]; exact I.
  - intros i k v [].
  - intros m [].
  - intros [|i]; discriminate.
  - intros f [].
Qed.

Lemma yinv_more : forall a b w, yinv a w -> (forall m, In m a -> In m b) -> yinv b w.
Proof.
  intros a b w I S. destruct I as [A1 A2 A3 A4 A5 A6]. constructor; auto. intros i ps c H m W. eapply S, A5; eassumption.
Qed.

Lemma ureach_step : forall u a u', ureachable u -> uexec u a = Some u' -> ureachable u'.
Proof. intros u a u' [l R] X. exists (l ++ [a]). rewrite urun_app, R. cbn. rewrite X. reflexivity. Qed.

(** the log only grows *)
Lemma call_returned_grows : forall w w' i q s store new, u_log (y_u w') = new ++ u_log (y_u w) ->
  call_returned w i q s store -> call_returned w' i q s store.
Proof.
  intros w w' i q s store new E (l1 & l2 & rest & L & R). exists (new ++ l1), l2, rest.
  rewrite E, L, app_assoc. split; [reflexivity|exact R].
Qed.

(** the range of a subscriber stays *)
Lemma meant_keeps : forall u a u' s lo hi m, uinv u -> uexec u a = Some u' ->
  meant_for s (u_log u) = Some (lo, hi, m) -> exists m', meant_for s (u_log u') = Some (lo, hi, m').
Proof.
  intros u a u' s lo hi m I X M. destruct (step_log u a u' X) as [E|[e E]]; rewrite E; [eauto|].
  destruct e as [j id v|j|j s' lo' hi'|j s' st]; cbn [meant_for].
  - rewrite M. destruct ((lo <=? id) && (id <=? hi)); eauto.
  - eauto.
  - destruct (Nat.eqb_spec s' s) as [->|D]; [|eauto]. exfalso.
    assert (meant_for s (u_log u) <> None) as NN by congruence. destruct (c_log u I s NN) as [_ NR].
    uexec_cases X; ufields; try (apply (f_equal (@length uevent)) in E; cbn in E; lia); try congruence.
    injection E as _ -> _ _. exact (NR _ _ _ Hth).
  - eauto.
Qed.

(** the values of stores already returned stay *)
Lemma meant_in : forall s log lo hi m v, meant_for s log = Some (lo, hi, m) -> In v m -> exists i k, In (UPub i k v) log /\ lo <= k <= hi.
Proof.
  intros s. induction log as [|e log IH]; intros lo hi m v H W; [discriminate|].
  destruct e as [j id x|j|j s' lo' hi'|j s' st]; cbn [meant_for] in H.
  - destruct (meant_for s log) as [[[lo0 hi0] m0]|] eqn:M; [|discriminate].
    destruct ((lo0 <=? id) && (id <=? hi0)) eqn:IR; injection H as <- <- <-.
    + apply in_app_or in W. destruct W as [W|[<-|[]]].
      * destruct (IH _ _ _ v eq_refl W) as (i & k & Q & R). exists i, k. split; [right; exact Q|exact R].
      * exists j, id. split; [left; reflexivity|]. apply andb_true_iff in IR. lia.
    + destruct (IH _ _ _ v eq_refl W) as (i & k & Q & R). exists i, k. split; [right; exact Q|exact R].
  - destruct (IH _ _ _ v H W) as (i & k & Q & R). exists i, k. split; [right; exact Q|exact R].
  - destruct (Nat.eqb s' s); [injection H as <- <- <-; destruct W|].
    destruct (IH _ _ _ v H W) as (i & k & Q & R). exists i, k. split; [right; exact Q|exact R].
  - destruct (IH _ _ _ v H W) as (i & k & Q & R). exists i, k. split; [right; exact Q|exact R].
Qed.

Lemma values_keep : forall w w' store more, (forall v, In v store -> nth_error (y_pubs w) (Z.to_nat v) <> None) ->
  y_pubs w' = y_pubs w ++ more -> y_values w' store = y_values w store.
Proof.
  intros w w' store more H E. unfold y_values. induction store as [|v store IH]; [reflexivity|]. cbn [flat_map].
  rewrite IH by (intros x W; apply H; right; exact W). f_equal. unfold y_pub. rewrite E.
  rewrite nth_error_app1; [reflexivity|]. apply nth_error_Some. apply H. left. reflexivity.
Qed.

Lemma returned_known : forall seen w i q s store, yinv seen w -> call_returned w i q s store ->
  forall v, In v store -> exists k x, nth_error (y_pubs w) (Z.to_nat v) = Some (k, x) /\ fst (scan_range q) <= k <= snd (scan_range q).
Proof.
  intros seen w i q s store I (l1 & l2 & rest & L & _ & M & _) v W.
  destruct (meant_in s l2 _ _ _ v M) as (j & k & Q & R); [apply in_or_app; left; exact W|].
  destruct (y_logged seen w I j k v) as (_ & x & N); [rewrite L; apply in_or_app; right; right; exact Q|]. eauto.
Qed.

(** Nothing of the manager changes: only phases and finished calls. *)
Lemma yinv_same_u : forall seen w w', yinv seen w -> y_u w' = y_u w -> y_pubs w' = y_pubs w ->
  (forall i, phase_ok w' i) ->
  (forall i ps b, nth_error (y_ph w') i = Some (YHandle ps b) -> nth_error (y_ph w) i = Some (YHandle ps b)) ->
  (forall f, In f (y_done w') -> In f (y_done w) \/ call_returned w (sd_thread f) (sd_req f) (sd_sub f) (sd_store f) /\
      (sd_result f = XErr /\ scan_stops (sd_req f) = true /\ sd_failed f = true \/
       sd_result f = scan_result (sd_req f) (y_values w (sd_store f)))) ->
  yinv seen w'.
Proof.
  intros seen w w' I Eu Ep P H D. constructor.
  - rewrite Eu. apply (y_reach seen w I).
  - exact P.
  - rewrite Eu, Ep. apply (y_logged seen w I).
  - rewrite Ep. apply (y_seen seen w I).
  - intros i ps b N. eapply (y_coming seen w I), H, N.
  - intros f W. assert (call_returned w (sd_thread f) (sd_req f) (sd_sub f) (sd_store f) /\
      (sd_result f = XErr /\ scan_stops (sd_req f) = true /\ sd_failed f = true \/
       sd_result f = scan_result (sd_req f) (y_values w (sd_store f)))) as [C R]
      by (destruct (D f W) as [W'|R]; [apply (y_fin seen w I f W')|exact R]).
    split; [destruct C as (l1 & l2 & rest & L & C); exists l1, l2, rest; rewrite Eu; auto|].
    unfold y_values, y_pub in *. rewrite Ep. exact R.
Qed.

(** One goroutine changes its phase, the manager does not move. *)
Lemma phase_move : forall w w' i x, (forall j, phase_ok w j) -> y_u w' = y_u w -> y_pubs w' = y_pubs w ->
  y_ph w' = upd (y_ph w) i x -> nth_error (y_ph w) i <> None -> phase_ok w' i -> forall j, phase_ok w' j.
Proof.
  intros w w' i x P Eu Ep Eh N Pi j. destruct (Nat.eq_dec i j) as [<-|D]; [exact Pi|].
  specialize (P j). unfold phase_ok in *. rewrite Eu, Eh, Ep. rewrite upd_other by exact D.
  destruct (nth_error (y_ph w) j) as [[| | | |[|[k y] ps] b]|]; destruct (nth_error (u_thr (y_u w)) j) as [[]|]; try exact P.
  all: unfold call_returned in *; rewrite Eu; exact P.
Qed.

(** The manager moves: [new] is what is added to its log. *)
Lemma yinv_u : forall seen w w' new more, yinv seen w -> ureachable (y_u w') -> u_log (y_u w') = new ++ u_log (y_u w) ->
  y_pubs w' = y_pubs w ++ more -> y_done w' = y_done w ->
  (forall i k v, In (UPub i k v) new -> 0 <= v /\ exists x, nth_error (y_pubs w') (Z.to_nat v) = Some (k, x)) ->
  (forall m, In m more -> In m seen) ->
  (forall i ps b, nth_error (y_ph w') i = Some (YHandle ps b) -> forall m, In m ps -> In m seen) ->
  (forall i, phase_ok w' i) -> yinv seen w'.
Proof.
  intros seen w w' new more I R Lg Ep Ed N M C P. constructor.
  - exact R.
  - exact P.
  - intros i k v W. rewrite Lg in W. apply in_app_or in W. destruct W as [W|W]; [exact (N i k v W)|].
    destruct (y_logged seen w I i k v W) as (V & x & Q). split; [exact V|]. exists x. rewrite Ep.
    rewrite nth_error_app1; [exact Q|]. apply nth_error_Some. congruence.
  - intros m W. rewrite Ep in W. apply in_app_or in W. destruct W as [W|W]; [apply (y_seen seen w I m W)|auto].
  - exact C.
  - intros f W. rewrite Ed in W. destruct (y_fin seen w I f W) as [A B].
    split; [eapply call_returned_grows; eassumption|].
    rewrite (values_keep w w' (sd_store f) more); [exact B| |exact Ep].
    intros v Wv. destruct (returned_known seen w _ _ _ _ I A v Wv) as (k & x & Q & _). congruence.
Qed.

(** A phase that does not move while the manager does. *)
Lemma phase_stays : forall seen w w' a more j, yinv seen w -> uexec (y_u w) a = Some (y_u w') ->
  y_pubs w' = y_pubs w ++ more ->
  nth_error (y_ph w') j = nth_error (y_ph w) j -> nth_error (u_thr (y_u w')) j = nth_error (u_thr (y_u w)) j ->
  phase_ok w' j.
Proof.
  intros seen w w' a more j I X Ep Eh Et. pose proof (y_phs seen w I j) as P. unfold phase_ok in *. rewrite Eh, Et.
  assert (exists new, u_log (y_u w') = new ++ u_log (y_u w)) as [new Lg]
    by (destruct (step_log _ _ _ X) as [E|[e E]]; rewrite E; [exists []|exists [e]]; reflexivity).
  pose proof (ureach_inv _ (y_reach seen w I)) as U.
  assert (forall q s m, meant_for s (u_log (y_u w)) = Some (fst (scan_range q), snd (scan_range q), m) ->
     exists m', meant_for s (u_log (y_u w')) = Some (fst (scan_range q), snd (scan_range q), m')) as MK
    by (intros q s m; apply (meant_keeps _ _ _ _ _ _ _ U X)).
  assert (forall e, In e (u_log (y_u w)) -> In e (u_log (y_u w'))) as IL by (intros e W; rewrite Lg; apply in_or_app; auto).
  destruct (nth_error (y_ph w) j) as [[| | | |[|[k y] ps] b]|]; destruct (nth_error (u_thr (y_u w)) j) as [[]|]; try exact P;
    try (destruct P as (A & B & m & C); split; [exact A|]; split; [apply IL; exact B|]; exact (MK _ _ _ C));
    try (destruct P as (A & B); split; [exact A|]; eapply call_returned_grows; eassumption);
    (destruct P as (v0 & A & B & C); exists v0; split; [exact A|]; split; [exact B|]; rewrite Ep;
     rewrite nth_error_app1; [exact C|apply nth_error_Some; congruence]).
Qed.

(** ** Steps *)
Lemma publish_inv : forall seen w i ps b w', yinv seen w ->
  nth_error (y_ph w) i <> None -> nth_error (u_thr (y_u w)) i = Some UIdle -> (forall m, In m ps -> In m seen) ->
  y_publish w i ps b = Some w' -> yinv seen w'.
Proof.
  intros seen w i ps b w' I Np Nu S H. unfold y_publish in H. destruct ps as [|[k x] ps].
  - assert (forall z, yinv seen (mkY (y_u w) (upd (y_ph w) i YFree) (y_pubs w) (y_done w) z)) as G.
    { intros z. apply (yinv_same_u seen w); [exact I|reflexivity|reflexivity| | |].
      - eapply (phase_move w _ i YFree); [apply (y_phs seen w I)|reflexivity|reflexivity|reflexivity|exact Np|].
        unfold phase_ok. cbn [y_ph y_u]. destruct (nth_error (y_ph w) i) eqn:E; [|congruence].
        erewrite upd_same by exact E. rewrite Nu. exact Logic.I.
      - cbn [y_ph]. intros j ps b0 N. destruct (Nat.eq_dec i j) as [<-|D]; [|rewrite upd_other in N by exact D; exact N].
        destruct (nth_error (y_ph w) i) eqn:E; [|congruence]. erewrite upd_same in N by exact E. discriminate.
      - auto. }
    injection H as <-. destruct b; apply G.
  - destruct (uexec (y_u w) _) as [u|] eqn:X in H; [|discriminate]. injection H as <-.
    set (w' := mkY _ _ _ _ _).
    assert (uexec (y_u w) (VCall i (CallPub k (Z.of_nat (length (y_pubs w))))) = Some (y_u w')) as X' by exact X.
    cbn [uexec] in X. rewrite Nu in X. injection X as Eu.
    apply (yinv_u seen w w' [] [(k, x)]); [exact I|eapply ureach_step; [apply (y_reach seen w I)|exact X']
      |subst w'; cbn [y_u]; rewrite <- Eu; reflexivity|reflexivity|reflexivity|intros j k0 v []| | |].
    + intros m [<-|[]]. apply S. left. reflexivity.
    + subst w'. cbn [y_ph]. intros j ps0 b0 N. destruct (Nat.eq_dec i j) as [<-|D].
      * destruct (nth_error (y_ph w) i) eqn:E; [|congruence]. erewrite upd_same in N by exact E.
        injection N as <- <-. exact S.
      * rewrite upd_other in N by exact D. exact (y_coming seen w I j ps0 b0 N).
    + intros j. destruct (Nat.eq_dec i j) as [<-|D].
      * unfold phase_ok. subst w'. cbn [y_ph y_u y_pubs]. destruct (nth_error (y_ph w) i) eqn:E; [|congruence].
        erewrite upd_same by exact E. rewrite <- Eu. ufields. erewrite upd_same by exact Nu. cbn [uentry pub_key].
        exists (Z.of_nat (length (y_pubs w))). split; [reflexivity|]. split; [lia|]. rewrite Nat2Z.id.
        rewrite nth_error_app2 by lia. rewrite Nat.sub_diag. reflexivity.
      * eapply (phase_stays seen w w' _ [(k, x)] j I X' eq_refl).
        -- subst w'. cbn [y_ph]. apply upd_other. exact D.
        -- subst w'. cbn [y_u]. rewrite <- Eu. ufields. apply upd_other. exact D.
Qed.

Lemma effect_pub_same : forall known src b, flat_map effect_pub (fst (handleMsg known src b)) = published known [(src, b)].
Proof.
  intros known src b. unfold published. cbn [flat_map fst snd]. rewrite app_nil_r.
  induction (fst (handleMsg known src b)) as [|e t IH]; [reflexivity|]. cbn [flat_map]. rewrite IH. destruct e; reflexivity.
Qed.

Lemma free_idle : forall seen w i, yinv seen w -> nth_error (y_ph w) i = Some YFree -> nth_error (u_thr (y_u w)) i = Some UIdle.
Proof.
  intros seen w i I N. pose proof (y_phs seen w I i) as P. unfold phase_ok in P. rewrite N in P.
  destruct (nth_error (u_thr (y_u w)) i) as [[]|]; tauto.
Qed.

Lemma same_length : forall seen w, yinv seen w -> length (y_ph w) = length (u_thr (y_u w)).
Proof.
  intros seen w I.
  assert (forall i, nth_error (y_ph w) i = None <-> nth_error (u_thr (y_u w)) i = None) as E.
  { intros i. pose proof (y_phs seen w I i) as P. unfold phase_ok in P.
    destruct (nth_error (y_ph w) i) as [[| | | |[|[k y] ps] b]|]; destruct (nth_error (u_thr (y_u w)) i) as [p|];
      try (destruct P; fail); split; intros; try discriminate; try reflexivity; try (destruct p; destruct P; fail). }
  pose proof (proj1 (E (length (y_ph w)))) as A. pose proof (proj2 (E (length (u_thr (y_u w))))) as B.
  rewrite !nth_error_None in A, B. specialize (A (le_n _)). specialize (B (le_n _)). lia.
Qed.

Lemma kill_inv : forall seen w, yinv seen w -> yinv seen (y_kill w).
Proof.
  intros seen w I. apply (yinv_same_u seen w); [exact I|reflexivity|reflexivity|exact (y_phs seen w I)|auto|auto].
Qed.

Lemma upd_twice : forall A (l : list A) i x y, upd (upd l i x) i y = upd l i y.
Proof. induction l as [|a l IH]; intros [|i] x y; cbn [upd]; [reflexivity|reflexivity|reflexivity|]. f_equal. apply IH. Qed.

(** a call moves by itself *)
Lemma move_inv : forall seen w i old x, yinv seen w -> nth_error (y_ph w) i = Some old ->
  (forall ps b, x <> YHandle ps b) -> phase_ok (y_setph w i x) i -> yinv seen (y_setph w i x).
Proof.
  intros seen w i old x I N D P. apply (yinv_same_u seen w); [exact I|reflexivity|reflexivity| | |auto].
  - eapply (phase_move w _ i x); [apply (y_phs seen w I)|reflexivity|reflexivity|reflexivity|congruence|exact P].
  - cbn [y_setph y_ph]. intros j ps b E. destruct (Nat.eq_dec i j) as [<-|Dj]; [|rewrite upd_other in E by exact Dj; exact E].
    erewrite upd_same in E by exact N. injection E as E. now destruct (D ps b).
Qed.
Lemma finish_inv : forall bcast me seen w i old q t s store r, yinv seen w -> nth_error (y_ph w) i = Some old ->
  nth_error (u_thr (y_u w)) i = Some UIdle -> call_returned w i q s store ->
  (r = XErr /\ scan_stops q = true /\ match t with TSent f | TOffer f _ => f = true | TNot => False end \/ r = scan_result q (y_values w store)) ->
  yinv seen (y_finish bcast me w i q t s store r).
Proof.
  intros bcast me seen w i old q t s store r I N U C R. apply (yinv_same_u seen w); [exact I|reflexivity|reflexivity| | |].
  - eapply (phase_move w _ i YFree); [apply (y_phs seen w I)|reflexivity|reflexivity|reflexivity|congruence|].
    unfold phase_ok. cbn [y_finish y_ph y_u]. erewrite upd_same by exact N. rewrite U. exact Logic.I.
  - cbn [y_finish y_ph]. intros j ps b E. destruct (Nat.eq_dec i j) as [<-|Dj]; [|rewrite upd_other in E by exact Dj; exact E].
    erewrite upd_same in E by exact N. discriminate.
  - cbn [y_finish y_done]. intros f [<-|W]; [|auto]. right. cbn [sd_thread sd_req sd_store sd_result sd_failed].
    split; [exact C|]. destruct R as [(A & B & D)|R]; [left|right; exact R]. split; [exact A|]. split; [exact B|].
    destruct t; [destruct D|exact D|exact D].
Qed.

Ltac at_phase seen w I N P U := pose proof (y_phs seen w I) as P;
  match type of N with nth_error _ ?i = _ => specialize (P i) end; unfold phase_ok in P; rewrite N in P;
  destruct (nth_error (u_thr (y_u w)) _) as [?p|] eqn:U; [|destruct P].

Lemma yexec_inv : forall bcast me seen w a w', yinv seen w -> yexec bcast me w a = Some w' -> yinv (seen ++ received_in [a]) w'.
Proof.
  intros bcast me seen w a w' I H. unfold yexec in H. destruct (y_dead w); [discriminate|].
  destruct a as [|i q|i src b known|i ok|i|i|i|a]; unfold received_in; cbn [flat_map app]; rewrite ?app_nil_r.
  - (* YSpawn *)
    cbn [uexec] in H. injection H as <-. set (w' := mkY _ _ _ _ _).
    assert (uexec (y_u w) VSpawn = Some (y_u w')) as X by reflexivity.
    assert (forall i ps b, nth_error (y_ph w') i = Some (YHandle ps b) -> nth_error (y_ph w) i = Some (YHandle ps b)) as HN.
    { intros i ps b N. subst w'. cbn [y_ph] in N. destruct (Nat.lt_ge_cases i (length (y_ph w))) as [L|L].
      - rewrite nth_error_app1 in N by exact L. exact N.
      - rewrite nth_error_app2 in N by exact L. destruct (i - length (y_ph w))%nat as [|[|?]]; discriminate. }
    apply (yinv_u seen w w' [] []); [exact I|eapply ureach_step; [apply (y_reach seen w I)|exact X]|reflexivity
      |cbn; symmetry; apply app_nil_r|reflexivity|intros ? ? ? []|intros ? []| |].
    + intros i ps b N. exact (y_coming seen w I i ps b (HN i ps b N)).
    + intros j. pose proof (same_length seen w I) as LE. destruct (Nat.lt_ge_cases j (length (y_ph w))) as [L|L].
      * apply (phase_stays seen w w' _ [] j I X); [cbn; symmetry; apply app_nil_r| |]; subst w'; cbn [y_ph y_u]; ufields;
          rewrite nth_error_app1 by lia; reflexivity.
      * unfold phase_ok. subst w'. cbn [y_ph y_u]. ufields. rewrite !nth_error_app2 by lia. rewrite LE.
        destruct (j - length (u_thr (y_u w)))%nat as [|[|?]]; exact Logic.I.
  - (* YCall *)
    destruct (nth_error (y_ph w) i) as [[]|] eqn:N; try discriminate.
    destruct (scan_frame bcast me q); [|injection H as <-; apply kill_inv; exact I].
    pose proof (free_idle seen w i I N) as U.
    destruct (uexec (y_u w) _) as [u|] eqn:X in H; [|discriminate]. injection H as <-. set (w' := y_setph _ _ _).
    assert (uexec (y_u w) (VCall i (CallSub (fst (scan_range q)) (snd (scan_range q)))) = Some (y_u w')) as X' by exact X.
    cbn [uexec] in X. rewrite U in X. injection X as Eu.
    apply (yinv_u seen w w' [] []); [exact I|eapply ureach_step; [apply (y_reach seen w I)|exact X']
      |subst w'; cbn; rewrite <- Eu; reflexivity|cbn; symmetry; apply app_nil_r|reflexivity|intros ? ? ? []|intros ? []| |].
    + intros j ps b E. subst w'. cbn in E. destruct (Nat.eq_dec i j) as [<-|Dj]; [erewrite upd_same in E by exact N; discriminate|].
      rewrite upd_other in E by exact Dj. exact (y_coming seen w I j ps b E).
    + intros j. destruct (Nat.eq_dec i j) as [<-|D].
      * unfold phase_ok. subst w'. cbn [y_setph y_setu y_ph y_u]. erewrite upd_same by exact N. rewrite <- Eu. ufields.
        erewrite upd_same by exact U. cbn [uentry sender_ok]. split; [reflexivity|]. destruct (scan_range q); reflexivity.
      * apply (phase_stays seen w w' _ [] j I X'); [cbn; symmetry; apply app_nil_r| |]; subst w'; cbn [y_setph y_setu y_ph y_u].
        -- apply upd_other. exact D.
        -- rewrite <- Eu. ufields. apply upd_other. exact D.
  - (* YArrive *)
    destruct (nth_error (y_ph w) i) as [[]|] eqn:N; try discriminate.
    destruct (handleMsg (fun _ => known) src b) as [eff panics] eqn:Hm.
    apply (publish_inv (seen ++ published (fun _ => known) [(src, b)]) w i (flat_map effect_pub eff) panics w').
    + eapply yinv_more; [exact I|]. intros m W. apply in_or_app. left. exact W.
    + congruence.
    + exact (free_idle seen w i I N).
    + intros m W. apply in_or_app. right. rewrite <- effect_pub_same, Hm. exact W.
    + exact H.
  - (* YTx *)
    destruct (nth_error (y_ph w) i) as [[|q [] err|q s st [] err|q s st [] err|]|] eqn:N; try discriminate;
      injection H as <-; (eapply move_inv; [exact I|exact N|discriminate|]); at_phase seen w I N P U;
      unfold phase_ok; cbn [y_setph y_ph y_u]; erewrite upd_same by exact N; rewrite U.
    + destruct P as [_ P]. split; [cbn; auto|exact P].
    + destruct p; try (destruct P; fail). destruct P as [S P]. split; [cbn; auto|exact P].
    + destruct p; try (destruct P; fail). destruct P as [S P]. split; [cbn; auto|exact P].
  - (* YOffer *)
    destruct (nth_error (y_ph w) i) as [[|q [] err|q s st [] err|q s st [] err|]|] eqn:N; try discriminate;
      injection H as <-; (eapply move_inv; [exact I|exact N|discriminate|]); at_phase seen w I N P U;
      unfold phase_ok; cbn [y_setph y_ph y_u]; erewrite upd_same by exact N; rewrite U.
    + destruct P as [S P]. split; [cbn in S |- *; auto|exact P].
    + destruct p; try (destruct P; fail). destruct P as [S P]. split; [cbn in S |- *; auto|exact P].
    + destruct p; try (destruct P; fail). destruct P as [S P]. split; [cbn in S |- *; auto|exact P].
  - (* YCheck *)
    destruct (nth_error (y_ph w) i) as [[| |q s st t err| |]|] eqn:N; try discriminate. at_phase seen w I N P U.
    destruct p; try (destruct P; fail). destruct P as [S P].
    destruct (err && scan_stops q) eqn:B; injection H as <-.
    + apply andb_true_iff in B. destruct B as [-> B].
      eapply finish_inv; [exact I|exact N|exact U|exact P|]. left. split; [reflexivity|]. split; [exact B|].
      destruct t; cbn in S; [discriminate|auto|tauto].
    + eapply move_inv; [exact I|exact N|discriminate|]. unfold phase_ok. cbn [y_setph y_ph y_u]. erewrite upd_same by exact N.
      rewrite U. split; [exact S|]. exact P.
  - (* YTake *)
    destruct (nth_error (y_ph w) i) as [[| | |q s st [| |f e] err|]|] eqn:N; try discriminate. at_phase seen w I N P U.
    destruct p; try (destruct P; fail). destruct P as [S P]. injection H as <-.
    eapply finish_inv; [exact I|exact N|exact U|exact P|].
    destruct (e && scan_stops q) eqn:B; [left|right; reflexivity]. apply andb_true_iff in B. destruct B as [-> B].
    split; [reflexivity|]. split; [exact B|]. apply S. reflexivity.
  - (* YIn *)
    destruct (y_inside a) eqn:Ia; [|discriminate]. destruct (uexec (y_u w) a) as [u|] eqn:X; [|discriminate].
    destruct (inside_step _ _ _ Ia X) as (i & p & p' & oe & N & N' & Ot & Lg & PS).
    pose proof (y_reach seen w I) as R. pose proof (ureach_step _ _ _ R X) as R'.
    pose proof (ureach_inv _ R) as U.
    assert (yinv seen (y_setu w u) -> forall j, j <> i -> phase_ok (y_setu w u) j) as _ by (intros; apply (y_phs seen _ H0)).
    assert (forall j, j <> i -> phase_ok (y_setu w u) j) as PO.
    { intros j D. apply (phase_stays seen w (y_setu w u) a [] j I X); [cbn; symmetry; apply app_nil_r|reflexivity|apply Ot; exact D]. }
    assert (forall oe', oe = oe' -> log_with oe' (u_log (y_u w)) = u_log u) as LW by (intros oe' <-; symmetry; exact Lg).
    pose proof (y_phs seen w I i) as P. unfold phase_ok in P. rewrite N in P.
    (* no event of a return: the phases stay *)
    assert (forall new, u_log u = new ++ u_log (y_u w) ->
       (forall j k v, In (UPub j k v) new -> 0 <= v /\ exists x, nth_error (y_pubs w) (Z.to_nat v) = Some (k, x)) ->
       phase_ok (y_setu w u) i -> yinv seen (y_setu w u)) as STAY.
    { intros new En NP Pi. apply (yinv_u seen w (y_setu w u) new []); [exact I|exact R'|exact En|cbn; symmetry; apply app_nil_r|reflexivity
        |exact NP|intros ? []|exact (y_coming seen w I)|].
      intros j. destruct (Nat.eq_dec j i) as [->|D]; [exact Pi|exact (PO j D)]. }
    destruct PS as [p p' key K K'|id v l|id v|lo hi s|lo hi s|p p' s st st' K K'|s st]; cbn [log_with] in Lg.
    + (* publishing on *)
      rewrite Lg, Nat.eqb_refl in H. injection H as <-. apply (STAY []); [exact Lg|intros ? ? ? []|].
      unfold phase_ok. cbn [y_setu y_ph y_u y_pubs]. rewrite N'.
      destruct (nth_error (y_ph w) i) as [[|q t err|q s1 st t err|q s1 st t err|[|[k y] ps] b]|];
        try (destruct p; cbn in K; try discriminate; destruct P; fail);
        try (destruct p; cbn in K; try discriminate; destruct P as [_ []]; fail).
      destruct P as (v & A & B). exists v. split; [congruence|exact B].
    + (* Publish enters *)
      rewrite Lg in H. cbn [length] in H. rewrite (proj2 (Nat.eqb_neq _ _)) in H by lia. cbn [y_returned] in H. injection H as <-.
      destruct (nth_error (y_ph w) i) as [[|q t err|q s1 st t err|q s1 st t err|[|[k y] ps] b]|] eqn:Eh;
        try (destruct P; fail); try (destruct P as [_ []]; fail).
      destruct P as (v' & A & B & C). cbn in A. injection A as -> ->.
      apply (STAY [UPub i k v']); [exact Lg| |].
      * intros j k0 v0 [E|[]]. injection E as -> -> ->. split; [exact B|eauto].
      * unfold phase_ok. cbn [y_setu y_ph y_u y_pubs]. rewrite N', Eh. exists v'. cbn. auto.
    + (* Publish returns *)
      rewrite Lg in H. cbn [length] in H. rewrite (proj2 (Nat.eqb_neq _ _)) in H by lia. cbn [y_returned] in H.
      destruct (nth_error (y_ph w) i) as [[|q t err|q s1 st t err|q s1 st t err|[|[k y] ps] b]|] eqn:Eh;
        try (destruct P; fail); try (destruct P as [_ []]; fail).
      cbn [y_setu y_ph] in H. rewrite Eh in H.
      (* for a moment the goroutine has nothing to publish *)
      set (w1 := y_setph (y_setu w u) i YFree).
      assert (yinv seen w1) as I1.
      { apply (yinv_u seen w w1 [UPubRet i] []); [exact I|exact R'|exact Lg|cbn; symmetry; apply app_nil_r|reflexivity
          |intros ? ? ? [E|[]]; discriminate|intros ? []| |].
        - intros j ps0 b0 E. subst w1. cbn in E. destruct (Nat.eq_dec i j) as [<-|Dj]; [erewrite upd_same in E by exact Eh; discriminate|].
          rewrite upd_other in E by exact Dj. exact (y_coming seen w I j ps0 b0 E).
        - intros j. destruct (Nat.eq_dec i j) as [<-|Dj].
          + unfold phase_ok. subst w1. cbn. erewrite upd_same by exact Eh. rewrite N'. exact Logic.I.
          + apply (phase_stays seen w w1 a [] j I X); [cbn; symmetry; apply app_nil_r| |apply Ot; congruence].
            subst w1. cbn. apply upd_other. exact Dj. }
      assert (y_publish w1 i ps b = Some w') as HP.
      { subst w1. unfold y_publish in H |- *. destruct ps as [|[k1 x1] ps].
        - injection H as <-. unfold y_setph, y_kill. cbn. rewrite upd_twice. reflexivity.
        - cbn [y_setph y_setu y_u y_ph y_pubs y_done y_dead] in H |- *. destruct (uexec u _) as [u2|]; [|discriminate].
          injection H as <-. rewrite upd_twice. reflexivity. }
      eapply (publish_inv seen w1 i ps b w' I1); [|exact N'| |exact HP].
      * subst w1. cbn. erewrite upd_same by exact Eh. discriminate.
      * intros m W. eapply (y_coming seen w I i); [exact Eh|right; exact W].
    + (* a new subscriber *)
      rewrite Lg, Nat.eqb_refl in H. injection H as <-. apply (STAY []); [exact Lg|intros ? ? ? []|].
      unfold phase_ok. cbn [y_setu y_ph y_u y_pubs]. rewrite N'.
      destruct (nth_error (y_ph w) i) as [[|q t err|q s1 st t err|q s1 st t err|[|[k y] ps] b]|]; try (destruct P; fail); try exact P.
    + (* registered *)
      rewrite Lg in H. cbn [length] in H. rewrite (proj2 (Nat.eqb_neq _ _)) in H by lia. cbn [y_returned] in H. injection H as <-.
      apply (STAY [USub i s lo hi]); [exact Lg|intros ? ? ? [E|[]]; discriminate|].
      unfold phase_ok. cbn [y_setu y_ph y_u y_pubs]. rewrite N'.
      destruct (nth_error (y_ph w) i) as [[|q t err|q s1 st t err|q s1 st t err|[|[k y] ps] b]|]; try (destruct P; fail).
      * destruct P as [A B]. split; [exact A|]. rewrite B. cbn [fst snd]. rewrite Lg. split; [left; reflexivity|].
        exists []. cbn [meant_for]. rewrite Nat.eqb_refl. reflexivity.
      * destruct P as (v & A & _). discriminate.
    + (* waiting on *)
      rewrite Lg, Nat.eqb_refl in H. injection H as <-. apply (STAY []); [exact Lg|intros ? ? ? []|].
      unfold phase_ok. cbn [y_setu y_ph y_u y_pubs]. rewrite N', Lg.
      destruct (nth_error (y_ph w) i) as [[|q t err|q s1 st0 t err|q s1 st0 t err|[|[k y] ps] b]|];
        destruct p; cbn in K; try discriminate; try (destruct P; fail); try (destruct P as (? & A & _); discriminate);
        injection K as -> ->; destruct p'; cbn in K'; try discriminate; injection K' as -> ->; exact P.
    + (* Subscribe returns *)
      rewrite Lg in H. cbn [length] in H. rewrite (proj2 (Nat.eqb_neq _ _)) in H by lia. cbn [y_returned y_setu y_ph] in H.
      destruct (nth_error (y_ph w) i) as [[|q t err|q s1 st0 t err|q s1 st0 t err|[|[k y] ps] b]|] eqn:Eh; try (destruct P; fail);
        try (destruct P as (? & A & _); discriminate).
      injection H as <-. destruct P as (S & RG & m & M).
      destruct (returned_prefix u R' [] i s st (u_log (y_u w)) Lg) as (lo & hi & rest & M' & LR).
      rewrite M in M'. injection M' as E1 E2 E3.
      assert (call_returned (y_setu w u) i q s st) as CR.
      { exists [], (u_log (y_u w)), rest. cbn [y_setu y_u app]. split; [exact Lg|]. split; [exact RG|]. split; [|exact LR].
        rewrite M. congruence. }
      set (w1 := y_setph _ _ _).
      apply (yinv_u seen w w1 [URet i s st] []); [exact I|exact R'|exact Lg|cbn; symmetry; apply app_nil_r|reflexivity
          |intros ? ? ? [E|[]]; discriminate|intros ? []| |].
      * intros j ps0 b0 E. subst w1. cbn in E. destruct (Nat.eq_dec i j) as [<-|Dj]; [erewrite upd_same in E by exact Eh; discriminate|].
        rewrite upd_other in E by exact Dj. exact (y_coming seen w I j ps0 b0 E).
      * intros j. destruct (Nat.eq_dec i j) as [<-|Dj].
        -- unfold phase_ok. subst w1. cbn [y_setph y_setu y_ph y_u]. erewrite upd_same by exact Eh. rewrite N'. split; [|exact CR].
           destruct t; cbn in S |- *; try discriminate; try reflexivity. split; [discriminate|tauto].
        -- apply (phase_stays seen w w1 a [] j I X); [cbn; symmetry; apply app_nil_r| |apply Ot; congruence].
           subst w1. cbn. apply upd_other. exact Dj.
Qed.

Lemma received_app : forall a b, received_in (a ++ b) = received_in a ++ received_in b.
Proof. intros. unfold received_in. apply flat_map_app. Qed.
Lemma yrun_app : forall bcast me a b w, yrun bcast me w (a ++ b) = match yrun bcast me w a with Some v => yrun bcast me v b | None => None end.
Proof. induction a as [|x a IH]; intros b w; cbn; [reflexivity|]. destruct (yexec bcast me w x); [apply IH|reflexivity]. Qed.
Lemma yrun_inv : forall bcast me l seen w w', yinv seen w -> yrun bcast me w l = Some w' -> yinv (seen ++ received_in l) w'.
Proof.
  induction l as [|a l IH]; intros seen w w' I R; cbn in R.
  - injection R as <-. cbn. rewrite app_nil_r. exact I.
  - destruct (yexec bcast me w a) as [v|] eqn:X; [|discriminate]. pose proof (yexec_inv _ _ _ _ _ _ I X) as I'.
    specialize (IH _ _ _ I' R). change (a :: l) with ([a] ++ l). rewrite received_app, app_assoc. exact IH.
Qed.
Lemma yinv_reached : forall bcast me l w, yrun bcast me y_init l = Some w -> yinv (received_in l) w.
Proof. intros bcast me l w R. exact (yrun_inv bcast me l [] y_init w y_init_inv R). Qed.

(** ** What a call returns *)
Lemma filter_split : forall A B (f : A -> B) (P : A -> bool) l a b, map f (filter P l) = a ++ b ->
  exists l1 l2, l = l1 ++ l2 /\ map f (filter P l1) = a /\ map f (filter P l2) = b.
Proof.
  intros A B f P. induction l as [|x l IH]; intros a b E; cbn in E.
  - destruct a; [|discriminate]. exists [], []. auto.
  - destruct (P x) eqn:Px.
    + destruct a as [|y a].
      * exists [], (x :: l). split; [reflexivity|]. split; [reflexivity|]. cbn [filter]. rewrite Px. exact E.
      * cbn in E. injection E as <- E. destruct (IH a b E) as (l1 & l2 & -> & <- & <-). exists (x :: l1), l2.
        split; [reflexivity|]. cbn [filter]. rewrite Px. split; reflexivity.
    + destruct (IH a b E) as (l1 & l2 & -> & <- & <-). exists (x :: l1), l2. split; [reflexivity|]. cbn [filter]. rewrite Px. split; reflexivity.
Qed.
Lemma range_asked : forall q, scan_range q = asked_range q.
Proof. intros []; [apply whois_range_requested|reflexivity|reflexivity]. Qed.
Lemma numbered_app : forall w a b, numbered w (a ++ b) = numbered w a ++ numbered w b.
Proof. intros. unfold numbered. apply flat_map_app. Qed.
Lemma values_app : forall w a b, y_values w (a ++ b) = y_values w a ++ y_values w b.
Proof. intros. unfold y_values. apply flat_map_app. Qed.
Lemma meant_made : forall w s log lo hi m,
  (forall i k v, In (UPub i k v) log -> 0 <= v /\ exists x, nth_error (y_pubs w) (Z.to_nat v) = Some (k, x)) ->
  meant_for s log = Some (lo, hi, m) -> y_values w m = map snd (filter (SpecClient.in_range lo hi) (numbered w (made_since s log))).
Proof.
  intros w s. induction log as [|e log IH]; intros lo hi m K M; [discriminate|].
  assert (forall i k v, In (UPub i k v) log -> 0 <= v /\ exists x, nth_error (y_pubs w) (Z.to_nat v) = Some (k, x)) as K' by (intros; eapply K; right; eassumption).
  destruct e as [j id v|j|j s' lo' hi'|j s' st]; cbn [meant_for made_since] in *.
  - destruct (meant_for s log) as [[[lo0 hi0] m0]|] eqn:M0; [|discriminate]. specialize (IH lo0 hi0 m0 K' eq_refl).
    destruct (K j id v (or_introl eq_refl)) as (_ & x & N). rewrite numbered_app, filter_app, map_app. cbn [numbered flat_map]. rewrite N. cbn [app filter].
    unfold SpecClient.in_range at 2. cbn [fst]. destruct ((lo0 <=? id) && (id <=? hi0)) eqn:R; injection M as <- <- <-; rewrite R.
    + rewrite values_app, IH. f_equal. cbn [y_values flat_map]. unfold y_pub. rewrite N. reflexivity.
    + rewrite IH. cbn. now rewrite app_nil_r.
  - apply IH; assumption.
  - destruct (Nat.eqb s' s); [injection M as <- <- <-; reflexivity|]. apply IH; assumption.
  - apply IH; assumption.
Qed.
Lemma values_length : forall w l, (length (y_values w l) <= length l)%nat.
Proof.
  intros w l. unfold y_values. induction l as [|v l IH]; [apply le_n|]. cbn [flat_map length]. rewrite app_length.
  assert (length (y_pub w v) <= 1)%nat by (unfold y_pub; destruct (nth_error _ _); cbn; lia). lia.
Qed.
Lemma numbered_in : forall w vs m, In m (numbered w vs) -> In m (y_pubs w).
Proof.
  intros w vs m W. unfold numbered in W. apply in_flat_map in W. destruct W as (v & _ & W).
  destruct (nth_error (y_pubs w) (Z.to_nat v)) eqn:N; [|destruct W]. destruct W as [<-|[]]. eapply nth_error_In. exact N.
Qed.
Lemma received_keyed : forall l, Forall keyed (received_in l).
Proof.
  intros l. unfold received_in. apply Forall_flat_map, Forall_forall. intros a _. destruct a; try constructor. apply published_keyed.
Qed.
Lemma gives_result : forall q heard, Forall keyed heard ->
  scan_gives q heard (scan_result q (map snd (filter (in_asked q) heard))).
Proof.
  intros [wh| |] heard K; unfold scan_gives, scan_result, in_asked; cbn [asked_range fst snd].
  - destruct (whois_spec wh heard K) as [A B]. unfold whois_returns in A, B. rewrite whois_range_requested in A, B. eauto.
  - f_equal. clear K. unfold whoisrouter_result. induction heard as [|[k x] heard IH]; [reflexivity|]. cbn [filter flat_map].
    unfold SpecClient.in_range at 1. cbn [fst]. destruct ((1 <=? k) && (k <=? 65534)); cbn [map snd flat_map]; rewrite IH; destruct x; reflexivity.
  - f_equal. clear K. unfold whatnetwork_result. induction heard as [|[k x] heard IH]; [reflexivity|]. cbn [filter flat_map].
    unfold SpecClient.in_range at 1. cbn [fst]. destruct ((1 <=? k) && (k <=? 65534)); cbn [map snd flat_map]; rewrite IH; destruct x; reflexivity.
Qed.

Lemma returned_split : forall seen w i q s store, yinv seen w -> call_returned w i q s store ->
  exists before since heard missed, u_log (y_u w) = before ++ URet i s store :: since /\
    In (USub i s (fst (asked_range q)) (snd (asked_range q))) since /\
    numbered w (made_since s since) = heard ++ missed /\ (length (filter (in_asked q) missed) <= 1)%nat /\
    y_values w store = map snd (filter (in_asked q) heard).
Proof.
  intros seen w i q s store I (l1 & l2 & rest & L & RG & M & LR).
  assert (forall i k v, In (UPub i k v) l2 -> 0 <= v /\ exists x, nth_error (y_pubs w) (Z.to_nat v) = Some (k, x)) as K.
  { intros j k v W. eapply (y_logged seen w I). rewrite L. apply in_or_app. right. right. exact W. }
  pose proof (meant_made w s l2 _ _ _ K M) as E. rewrite values_app in E.
  destruct (filter_split _ _ _ _ _ _ _ (eq_sym E)) as (heard & missed & E1 & E2 & E3).
  rewrite range_asked in *. exists l1, l2, heard, missed. split; [exact L|]. split; [exact RG|]. split; [exact E1|]. split; [|symmetry; exact E2].
  change (in_asked q) with (SpecClient.in_range (fst (asked_range q)) (snd (asked_range q))). rewrite <- (map_length snd), E3. pose proof (values_length w rest). lia.
Qed.

(** ** Every call has its own subscriber *)
Definition gone (u : usys) : Prop := forall i s st, In (URet i s st) (u_log u) ->
  (s < length (u_objs u))%nat /\ forall j p, nth_error (u_thr u) j = Some p -> ~ In s (owned p).

Lemma gone_exec : forall u a u', uinv u -> gone u -> uexec u a = Some u' -> gone u'.
Proof.
  intros u a u' I G H i s st W.
  assert (In (URet i s st) (u_log u) \/ exists j, nth_error (u_thr u) j = Some (SubRem s st) /\ j = i /\ a = VStep j) as O.
  { destruct a; uexec_cases H; ufields; try (left; exact W); destruct W as [W|W]; try (left; exact W); try discriminate W.
    injection W as -> -> ->. right. eauto. }
  destruct O as [W0|(j & Hj & -> & ->)].
  - destruct (G i s st W0) as [L N]. clear W. destruct a; uexec_cases H; ufields; rewrite ?upd_length, ?app_length; (split; [cbn; lia|]);
      intros j p Hp; try (apply upd_inv in Hp; destruct Hp as [[-> ->]|[Dj Hp]]);
      try (exact (N j p Hp)); try (intros []; fail); try (specialize (N _ _ Hth); cbn [owned In] in N |- *; tauto).
    + destruct (Nat.lt_ge_cases j (length (u_thr u))) as [Lj|Lj]; [rewrite nth_error_app1 in Hp by exact Lj; exact (N j p Hp)|].
      rewrite nth_error_app2 in Hp by exact Lj. destruct (j - length (u_thr u))%nat as [|[|?]]; try discriminate. injection Hp as <-. intros [].
    + destruct o; intros [].
    + cbn [owned In]. intros [E|[]]. lia.
  - cbn [uexec] in H. rewrite Hj in H. cbn [ustep] in H. destruct (u_lock u); [discriminate|]. injection H as <-. ufields.
    split; [eapply (c_range u I); [exact Hj|left; reflexivity]|]. intros j p Hp. apply upd_inv in Hp. destruct Hp as [[-> ->]|[Dj Hp]]; [intros []|].
    intros C. apply Dj. symmetry. eapply (c_own u I); [exact Hj|exact Hp|left; reflexivity|exact C].
Qed.
Lemma gone_reach : forall u, ureachable u -> gone u.
Proof.
  intros u [l R]. assert (uinv uinit -> gone uinit -> gone u) as H.
  { revert R. generalize uinit. induction l as [|a l IH]; intros u0 R I G; cbn in R; [injection R as <-; exact G|].
    destruct (uexec u0 a) as [u1|] eqn:X; [|discriminate]. eapply IH; [exact R|eapply uexec_inv; eassumption|eapply gone_exec; eassumption]. }
  apply H; [exact uinit_inv|]. intros i s st [].
Qed.
Lemma before_first : forall u, ureachable u -> forall l1 i s st l2, u_log u = l1 ++ URet i s st :: l2 -> before_return s (u_log u) = l2.
Proof.
  intros u [l R]. assert (uinv uinit -> gone uinit -> (forall l1 i s st l2, u_log uinit = l1 ++ URet i s st :: l2 -> before_return s (u_log uinit) = l2) ->
    forall l1 i s st l2, u_log u = l1 ++ URet i s st :: l2 -> before_return s (u_log u) = l2) as H.
  { revert R. generalize uinit. induction l as [|a l IH]; intros u0 R I G B; cbn in R; [injection R as <-; exact B|].
    destruct (uexec u0 a) as [u1|] eqn:X; [|discriminate]. apply (IH u1 R); [eapply uexec_inv; eassumption|eapply gone_exec; eassumption|]. clear IH R.
    intros l1 i s st l2 E. destruct (step_log _ _ _ X) as [E1|[e E1]]; rewrite E1 in E |- *; [eapply B; exact E|].
    destruct l1 as [|e1 l1]; cbn [app] in E; injection E as -> E.
    - cbn [before_return]. rewrite Nat.eqb_refl. exact E.
    - destruct e1 as [j k v|j|j s' lo hi|j s' st']; cbn [before_return]; try (eapply B; exact E).
      destruct (Nat.eqb_spec s' s) as [->|D]; [|eapply B; exact E]. exfalso.
      destruct (G i s st) as [_ N]; [rewrite E; apply in_or_app; right; left; reflexivity|].
      destruct a; uexec_cases X; ufields; try (apply (f_equal (@length uevent)) in E1; cbn in E1; lia); try congruence.
      injection E1 as _ -> _. apply (N _ _ Hth). left. reflexivity. }
  apply H; [exact uinit_inv|intros i s st []|]. intros [|? l1]; discriminate.
Qed.

Definition held_sub (x : sphase) : list nat :=
  match x with YTest _ s _ _ _ | YWait _ s _ _ _ => [s] | _ => [] end.
Record yuniq (w : syst) : Prop := {
  q_done : NoDup (map sd_sub (y_done w));
  q_held : forall i x s, nth_error (y_ph w) i = Some x -> In s (held_sub x) -> ~ In s (map sd_sub (y_done w));
  q_two : forall i j x y s, nth_error (y_ph w) i = Some x -> nth_error (y_ph w) j = Some y -> In s (held_sub x) -> In s (held_sub y) -> i = j
}.
(** the other phases and calls are the same *)
Lemma yuniq_move : forall w w' i x, yuniq w -> y_done w' = y_done w -> nth_error (y_ph w') i = Some x ->
  (forall j y, j <> i -> nth_error (y_ph w') j = Some y -> nth_error (y_ph w) j = Some y \/ held_sub y = []) ->
  (held_sub x = [] \/ (exists old, nth_error (y_ph w) i = Some old /\ held_sub x = held_sub old) \/
   (forall s, In s (held_sub x) -> ~ In s (map sd_sub (y_done w)) /\ forall j y, nth_error (y_ph w) j = Some y -> ~ In s (held_sub y))) -> yuniq w'.
Proof.
  intros w w' i x U D N O H.
  assert (forall s, In s (held_sub x) -> ~ In s (map sd_sub (y_done w))) as HD.
  { intros s W. destruct H as [E|[(old & E & F)|E]]; [rewrite E in W; destruct W|rewrite F in W; eapply (q_held w U); eassumption|apply E; exact W]. }
  assert (forall s j y, j <> i -> nth_error (y_ph w) j = Some y -> In s (held_sub x) -> ~ In s (held_sub y)) as HT.
  { intros s j y Dj Ny W V. destruct H as [E|[(old & E & F)|E]]; [rewrite E in W; destruct W| |destruct (E s W) as [_ Q]; exact (Q j y Ny V)].
    rewrite F in W. apply Dj. exact (q_two w U j i y old s Ny E V W). }
  constructor; rewrite ?D.
  - exact (q_done w U).
  - intros j y s Ny W. destruct (Nat.eq_dec j i) as [->|Dj]; [rewrite N in Ny; injection Ny as <-; apply HD; exact W|].
    destruct (O j y Dj Ny) as [Q|Q]; [exact (q_held w U j y s Q W)|rewrite Q in W; destruct W].
  - intros j k y z s Ny Nz Wy Wz. destruct (Nat.eq_dec j i) as [->|Dj]; destruct (Nat.eq_dec k i) as [->|Dk]; [reflexivity| | |].
    + rewrite N in Ny. injection Ny as <-. destruct (O k z Dk Nz) as [Q|Q]; [|rewrite Q in Wz; destruct Wz]. now destruct (HT s k z Dk Q Wy).
    + rewrite N in Nz. injection Nz as <-. destruct (O j y Dj Ny) as [Q|Q]; [|rewrite Q in Wy; destruct Wy]. now destruct (HT s j y Dj Q Wz).
    + destruct (O j y Dj Ny) as [Q|Q]; [|rewrite Q in Wy; destruct Wy]. destruct (O k z Dk Nz) as [Q'|Q']; [|rewrite Q' in Wz; destruct Wz].
      eapply (q_two w U); eassumption.
Qed.
Lemma yuniq_set : forall w w' i old x, yuniq w -> y_done w' = y_done w -> y_ph w' = upd (y_ph w) i x -> nth_error (y_ph w) i = Some old ->
  (held_sub x = [] \/ held_sub x = held_sub old) -> yuniq w'.
Proof.
  intros w w' i old x U D E N H. apply (yuniq_move w w' i x U D).
  - rewrite E. eapply upd_same. exact N.
  - intros j y Dj Ny. left. rewrite E in Ny. rewrite upd_other in Ny by congruence. exact Ny.
  - destruct H as [H|H]; [left; exact H|right; left; eauto].
Qed.
Lemma yuniq_finish : forall bcast me w i q t s st r old, yuniq w -> nth_error (y_ph w) i = Some old -> held_sub old = [s] ->
  yuniq (y_finish bcast me w i q t s st r).
Proof.
  intros bcast me w i q t s st r old U N H. unfold y_finish. constructor; cbn [y_done y_ph map sd_sub].
  - constructor; [eapply (q_held w U); [exact N|rewrite H; left; reflexivity]|exact (q_done w U)].
  - intros j y s' Ny W. destruct (Nat.eq_dec i j) as [<-|Dj]; [erewrite upd_same in Ny by exact N; injection Ny as <-; destruct W|].
    rewrite upd_other in Ny by exact Dj. intros [<-|C]; [|exact (q_held w U j y s' Ny W C)].
    apply Dj. eapply (q_two w U); [exact N|exact Ny|rewrite H; left; reflexivity|exact W].
  - intros j k y z s' Ny Nz Wy Wz. destruct (Nat.eq_dec i j) as [<-|Dj]; [erewrite upd_same in Ny by exact N; injection Ny as <-; destruct Wy|].
    destruct (Nat.eq_dec i k) as [<-|Dk]; [erewrite upd_same in Nz by exact N; injection Nz as <-; destruct Wz|].
    rewrite upd_other in Ny by exact Dj. rewrite upd_other in Nz by exact Dk. eapply (q_two w U); eassumption.
Qed.
Lemma publish_uniq : forall w i ps b w' old, yuniq w -> nth_error (y_ph w) i = Some old -> y_publish w i ps b = Some w' -> yuniq w'.
Proof.
  intros w i ps b w' old U N H. unfold y_publish in H. destruct ps as [|[k x] ps].
  - apply (yuniq_set w w' i old YFree U); [..|left; reflexivity]; destruct b; injection H as <-; try reflexivity; exact N.
  - destruct (uexec _ _); [|discriminate]. injection H as <-. eapply (yuniq_set w _ i old); [exact U|reflexivity|reflexivity|exact N|left; reflexivity].
Qed.
Lemma yexec_uniq : forall bcast me seen w a w', yinv seen w -> yuniq w -> yexec bcast me w a = Some w' -> yuniq w'.
Proof.
  intros bcast me seen w a w' I U H. unfold yexec in H. destruct (y_dead w); [discriminate|].
  destruct a as [|i q|i src b known|i ok|i|i|i|a].
  - cbn [uexec] in H. injection H as <-. apply (yuniq_move w _ (length (y_ph w)) YFree U); [reflexivity| | |left; reflexivity]; cbn [y_ph].
    + rewrite nth_error_app2, Nat.sub_diag by apply le_n. reflexivity.
    + intros j y Dj Ny. destruct (Nat.lt_ge_cases j (length (y_ph w))) as [L|L]; [left; rewrite nth_error_app1 in Ny by exact L; exact Ny|].
      rewrite nth_error_app2 in Ny by exact L. destruct (j - length (y_ph w))%nat as [|[|?]] eqn:E; try discriminate. lia.
  - destruct (nth_error (y_ph w) i) as [[]|] eqn:N; try discriminate. destruct (scan_frame _ _ _).
    + destruct (uexec _ _); [|discriminate]. injection H as <-. eapply yuniq_set; [exact U|reflexivity|reflexivity|exact N|left; reflexivity].
    + injection H as <-. destruct U. constructor; assumption.
  - destruct (nth_error (y_ph w) i) as [[]|] eqn:N; try discriminate. destruct (handleMsg _ _ _). eapply publish_uniq; eassumption.
  - destruct (nth_error (y_ph w) i) as [[|q [] err|q s st [] err|q s st [] err|]|] eqn:N; try discriminate; injection H as <-;
      (eapply yuniq_set; [exact U|reflexivity|reflexivity|exact N|right; reflexivity]).
  - destruct (nth_error (y_ph w) i) as [[|q [] err|q s st [] err|q s st [] err|]|] eqn:N; try discriminate; injection H as <-;
      (eapply yuniq_set; [exact U|reflexivity|reflexivity|exact N|right; reflexivity]).
  - destruct (nth_error (y_ph w) i) as [[| |q s st t err| |]|] eqn:N; try discriminate. destruct (err && scan_stops q); injection H as <-.
    + eapply yuniq_finish; [exact U|exact N|reflexivity].
    + eapply yuniq_set; [exact U|reflexivity|reflexivity|exact N|right; reflexivity].
  - destruct (nth_error (y_ph w) i) as [[| | |q s st [| |f e] err|]|] eqn:N; try discriminate. injection H as <-. eapply yuniq_finish; [exact U|exact N|reflexivity].
  - destruct (y_inside a); [|discriminate]. destruct (uexec (y_u w) a) as [u|] eqn:X; [|discriminate].
    assert (yuniq (y_setu w u)) as US by (destruct U; constructor; assumption).
    destruct (Nat.eqb _ _) eqn:EQ; [injection H as <-; exact US|]. destruct (u_log u) as [|e log] eqn:L; [injection H as <-; exact US|].
    destruct e as [j k v|j|j s' lo hi|j s st]; cbn [y_returned] in H; try (injection H as <-; exact US); cbn [y_setu y_ph] in H;
      destruct (nth_error (y_ph w) j) as [[|q t err|q s1 st1 t err|q s1 st1 t err|[|m ps] b]|] eqn:N; try (injection H as <-; exact US).
    + eapply publish_uniq; [exact US|exact N|exact H].
    + injection H as <-. eapply (yuniq_move (y_setu w u) _ j); [exact US|reflexivity|cbn [y_setph y_setu y_ph]; eapply upd_same; exact N| |].
      * cbn [y_setph y_setu y_ph]. intros k y Dk Ny. rewrite upd_other in Ny by congruence. left. exact Ny.
      * right. right. cbn [held_sub y_setu y_done y_ph]. intros s0 [<-|[]].
        assert (forall i st0, In (URet i s st0) (u_log (y_u w)) -> False) as NR.
        { intros i st0 W. destruct (gone_reach _ (y_reach _ w I) i s st0 W) as [_ NO]. destruct (step_log _ _ _ X) as [E|[e E]]; rewrite L in E.
          - rewrite <- E in EQ. cbn [length] in EQ. rewrite Nat.eqb_refl in EQ. discriminate.
          - injection E as <- ->. destruct a; uexec_cases X; ufields; try (apply (f_equal (@length uevent)) in L; cbn in L; lia); try congruence.
            injection L as _ -> _. eapply NO; [eassumption|]. left. reflexivity. }
        split.
        -- intros C. apply in_map_iff in C. destruct C as (f & Ef & Wf). destruct (y_fin _ w I f Wf) as [(l1 & l2 & rest & Lf & _) _].
           rewrite Ef in Lf. apply (NR (sd_thread f) (sd_store f)). rewrite Lf. apply in_or_app. right. left. reflexivity.
        -- intros k y Ny W. pose proof (y_phs _ w I k) as P. unfold phase_ok in P. rewrite Ny in P.
           destruct y as [|q1 t1 e1|q1 s1 st1 t1 e1|q1 s1 st1 t1 e1|ps b]; try destruct W as [->|[]]; try destruct W;
             destruct (nth_error (u_thr (y_u w)) k) as [[]|]; try (destruct P; fail); destruct P as (_ & l1 & l2 & rest & Lf & _);
             apply (NR k st1); rewrite Lf; apply in_or_app; right; left; reflexivity.
Qed.
Lemma yuniq_reached : forall bcast me l w, yrun bcast me y_init l = Some w -> yuniq w.
Proof.
  intros bcast me l w R. assert (forall l seen v, yinv seen v -> yuniq v -> yrun bcast me v l = Some w -> yuniq w) as H.
  { clear l R. induction l as [|a l IH]; intros seen v I U R; cbn in R; [injection R as <-; exact U|].
    destruct (yexec bcast me v a) as [v'|] eqn:X; [|discriminate]. eapply IH; [eapply yexec_inv; eassumption|eapply yexec_uniq; eassumption|exact R]. }
  apply (H l [] y_init y_init_inv); [|exact R]. constructor; cbn; [constructor|intros [|i]; discriminate|intros [|i]; discriminate].
Qed.

Lemma scan_exact : forall bcast me l w, yrun bcast me y_init l = Some w -> NoDup (map sd_sub (y_done w)) /\
  forall f, In f (y_done w) -> exists heard missed,
    In (USub (sd_thread f) (sd_sub f) (fst (asked_range (sd_req f))) (snd (asked_range (sd_req f)))) (u_log (y_u w)) /\
    In (URet (sd_thread f) (sd_sub f) (sd_store f)) (u_log (y_u w)) /\
    announced_during w f = heard ++ missed /\
    (length (filter (in_asked (sd_req f)) missed) <= 1)%nat /\
    (sd_result f = XErr /\ sd_failed f = true \/ scan_gives (sd_req f) heard (sd_result f)).
Proof.
  intros bcast me l w R. split; [exact (q_done w (yuniq_reached _ _ _ _ R))|]. intros f W. pose proof (yinv_reached _ _ _ _ R) as I. destruct (y_fin _ w I f W) as [C D].
  destruct (returned_split _ w _ _ _ _ I C) as (before & since & heard & missed & A1 & A2 & A3 & A4 & A5).
  exists heard, missed. split; [rewrite A1; apply in_or_app; right; right; exact A2|]. split; [rewrite A1; apply in_or_app; right; left; reflexivity|].
  split; [unfold announced_during; rewrite (before_first _ (y_reach _ w I) _ _ _ _ _ A1); exact A3|]. split; [exact A4|].
  destruct D as [(D1 & _ & D2)|D]; [left; auto|right].
  rewrite D, A5. apply gives_result. apply Forall_forall. intros m Wm. pose proof (received_keyed l) as K. rewrite Forall_forall in K.
  apply K. eapply (y_seen _ w I), numbered_in. rewrite A3. apply in_or_app. left. exact Wm.
Qed.

Lemma scan_found : forall bcast me l w f wh ds, yrun bcast me y_init l = Some w -> In f (y_done w) ->
  sd_req f = QWho wh -> sd_result f = XDevices ds ->
  NoDup (map f_deviceid ds) /\
  forall x, In x ds -> exists i src b known th, In (YArrive th src b known) l /\
    In (oid_inst (i_id i), PubIAm i) (published (fun _ => known) [(src, b)]) /\
    requested_low wh <= oid_inst (i_id i) <= requested_high wh /\ x = found_of i.
Proof.
  intros bcast me l w f wh ds R W Q X. destruct (scan_exact _ _ _ _ R) as [_ S]. destruct (S f W) as (heard & missed & _ & _ & E & _ & D).
  rewrite X, Q in D. destruct D as [[D _]|(ds' & D & ND & IFF)]; [discriminate|]. injection D as <-. split; [exact ND|].
  intros x Wx. apply IFF in Wx. destruct Wx as (pre & i & post & -> & RG & -> & _).
  assert (In (oid_inst (i_id i), PubIAm i) (received_in l)) as WR.
  { eapply (y_seen _ w (yinv_reached _ _ _ _ R)), numbered_in. unfold announced_during in E. rewrite E. apply in_or_app. left. apply in_or_app. right. left. reflexivity. }
  unfold received_in in WR. apply in_flat_map in WR. destruct WR as (a & Wa & WR). destruct a; try destruct WR.
  exists i, src, b, known, i0. auto.
Qed.

Lemma first_announcement : forall (heard : list (Z * pub)) n, (exists k i, In (k, PubIAm i) heard /\ oid_inst (i_id i) = n) ->
  exists pre k i post, heard = pre ++ (k, PubIAm i) :: post /\ oid_inst (i_id i) = n /\ forall k' j, In (k', PubIAm j) pre -> oid_inst (i_id j) <> n.
Proof.
  induction heard as [|[k x] heard IH]; intros n (k0 & i0 & W & E); [destruct W|].
  assert ((exists i, x = PubIAm i /\ oid_inst (i_id i) = n) \/ ~ (exists i, x = PubIAm i /\ oid_inst (i_id i) = n)) as [(i & -> & F)|F].
  { destruct x as [i| |]; try (right; intros (? & ? & _); discriminate). destruct (Z.eq_dec (oid_inst (i_id i)) n); [left; eauto|right].
    intros (j & Ej & Fj). injection Ej as <-. auto. }
  - exists [], k, i, heard. split; [reflexivity|]. split; [exact F|intros ? ? []].
  - destruct W as [W|W]; [injection W as -> ->; destruct F; eauto|]. destruct (IH n) as (pre & k1 & i1 & post & -> & F1 & NP); [eauto|].
    exists ((k, x) :: pre), k1, i1, post. split; [reflexivity|]. split; [exact F1|]. intros k' j [W'|W']; [|eapply NP; exact W'].
    injection W' as -> ->. intros C. apply F. eauto.
Qed.
(** An announcement during the call is only missed if it is the last one in range. *)
Lemma followed_found : forall bcast me l w f wh ds pre i mid m post, yrun bcast me y_init l = Some w -> In f (y_done w) ->
  sd_req f = QWho wh -> sd_result f = XDevices ds ->
  announced_during w f = pre ++ (oid_inst (i_id i), PubIAm i) :: mid ++ m :: post ->
  requested_low wh <= oid_inst (i_id i) <= requested_high wh -> requested_low wh <= fst m <= requested_high wh ->
  In (oid_inst (i_id i)) (map f_deviceid ds).
Proof.
  intros bcast me l w f wh ds pre i mid m post R W Q X E RI RM. destruct (scan_exact _ _ _ _ R) as [_ S]. destruct (S f W) as (heard & missed & _ & _ & E1 & L & D).
  rewrite X, Q in D. destruct D as [[D _]|(ds' & D & ND & IFF)]; [discriminate|]. injection D as <-. rewrite Q in L.
  assert (In (oid_inst (i_id i), PubIAm i) heard) as WH.
  { rewrite E1 in E. destruct (Nat.le_gt_cases (length heard) (length pre)) as [LE|LT].
    - exfalso. assert (missed = skipn (length heard) pre ++ (oid_inst (i_id i), PubIAm i) :: mid ++ m :: post) as EM.
      { apply (f_equal (skipn (length heard))) in E. rewrite skipn_app, skipn_all, Nat.sub_diag in E. cbn [app skipn] in E.
        rewrite skipn_app in E. replace (length heard - length pre)%nat with 0%nat in E by lia. exact E. }
      rewrite EM, filter_app, app_length in L. cbn [filter] in L. unfold in_asked in L at 2. unfold SpecClient.in_range in L. cbn [fst asked_range snd] in L.
      replace ((requested_low wh <=? oid_inst (i_id i)) && (oid_inst (i_id i) <=? requested_high wh)) with true in L by lia.
      cbn [length] in L. rewrite filter_app, app_length in L. cbn [filter] in L. unfold in_asked in L at 3. unfold SpecClient.in_range in L. cbn [asked_range fst snd] in L.
      replace ((requested_low wh <=? fst m) && (fst m <=? requested_high wh)) with true in L by lia. cbn [length] in L. lia.
    - apply (f_equal (fun l => nth_error l (length pre))) in E. rewrite nth_error_app1 in E by exact LT.
      rewrite nth_error_app2, Nat.sub_diag in E by apply le_n. cbn in E. eapply nth_error_In. exact E. }
  destruct (first_announcement heard (oid_inst (i_id i))) as (p1 & k1 & i1 & q1 & EH & F1 & NP); [eauto|].
  assert (k1 = oid_inst (i_id i1)) as K1.
  { assert (In (k1, PubIAm i1) (received_in l)) as WR.
    { eapply (y_seen _ w (yinv_reached _ _ _ _ R)), numbered_in. unfold announced_during in E1. rewrite E1, EH. apply in_or_app. left. apply in_or_app. right. left. reflexivity. }
    pose proof (received_keyed l) as K. rewrite Forall_forall in K. exact (K _ WR). }
  subst k1. apply in_map_iff. exists (found_of i1). split; [exact F1|]. apply IFF. exists p1, i1, q1. split; [exact EH|]. split; [lia|]. split; [reflexivity|].
  rewrite F1. exact NP.
Qed.

(** ** The manager of the clients only makes steps of the manager *)
Lemma publish_steps : forall w i ps b w', y_publish w i ps b = Some w' -> exists acts, urun (y_u w) acts = Some (y_u w').
Proof.
  intros w i ps b w' H. unfold y_publish in H. destruct ps as [|[k x] ps].
  - exists []. destruct b; injection H as <-; reflexivity.
  - destruct (uexec (y_u w) _) as [u|] eqn:X; [|discriminate]. injection H as <-. eexists [_]. cbn [urun]. rewrite X. reflexivity.
Qed.
Lemma returned_steps : forall w e w', y_returned w e = Some w' -> exists acts, urun (y_u w) acts = Some (y_u w').
Proof.
  intros w e w' H. destruct e as [j k v|j|j s lo hi|j s st]; cbn [y_returned] in H; try (injection H as <-; exists []; reflexivity).
  - destruct (nth_error (y_ph w) j) as [[| | | |[|m ps] b]|]; try (injection H as <-; exists []; reflexivity). eapply publish_steps. exact H.
  - destruct (nth_error (y_ph w) j) as [[| | | |[|m ps] b]|]; injection H as <-; exists []; reflexivity.
Qed.
Lemma yexec_steps : forall bcast me w a w', yexec bcast me w a = Some w' -> exists acts, urun (y_u w) acts = Some (y_u w').
Proof.
  intros bcast me w a w' H. unfold yexec in H. destruct (y_dead w); [discriminate|]. destruct a as [|i q|i src b known|i ok|i|i|i|a].
  - destruct (uexec (y_u w) VSpawn) as [u|] eqn:X; [|discriminate]. injection H as <-. exists [VSpawn]. cbn [urun]. rewrite X. reflexivity.
  - destruct (nth_error (y_ph w) i) as [[]|]; try discriminate. destruct (scan_frame _ _ _); [|injection H as <-; exists []; reflexivity].
    destruct (uexec (y_u w) _) as [u|] eqn:X; [|discriminate]. injection H as <-. eexists [_]. cbn [urun]. rewrite X. reflexivity.
  - destruct (nth_error (y_ph w) i) as [[]|]; try discriminate. destruct (handleMsg _ _ _). eapply publish_steps. exact H.
  - destruct (nth_error (y_ph w) i) as [[|q [] err|q s st [] err|q s st [] err|]|]; try discriminate; injection H as <-; exists []; reflexivity.
  - destruct (nth_error (y_ph w) i) as [[|q [] err|q s st [] err|q s st [] err|]|]; try discriminate; injection H as <-; exists []; reflexivity.
  - destruct (nth_error (y_ph w) i) as [[| |q s st t err| |]|]; try discriminate. destruct (err && scan_stops q); injection H as <-; exists []; reflexivity.
  - destruct (nth_error (y_ph w) i) as [[| | |q s st [| |f e] err|]|]; try discriminate. injection H as <-. exists []. reflexivity.
  - destruct (y_inside a); [|discriminate]. destruct (uexec (y_u w) a) as [u|] eqn:X; [|discriminate].
    assert (forall acts, urun u acts = Some (y_u w') -> exists l, urun (y_u w) l = Some (y_u w')) as ST by (intros acts R; exists (a :: acts); cbn; rewrite X; exact R).
    destruct (Nat.eqb _ _); [injection H as <-; apply (ST []); reflexivity|]. destruct (u_log u); [injection H as <-; apply (ST []); reflexivity|].
    destruct (returned_steps _ _ _ H) as [acts R]. exact (ST acts R).
Qed.

(** ** Stuck for ever *)
Lemma scanning_set : forall w i j x, (forall q t e, nth_error (y_ph w) j = Some (YSub q t e) -> exists q t e, x = YSub q t e) ->
  scanning w i -> scanning (y_setph w j x) i.
Proof.
  intros w i j x H (q & t & e & N). unfold scanning. cbn [y_setph y_ph]. destruct (Nat.eq_dec j i) as [->|D].
  - destruct (H q t e N) as (q' & t' & e' & ->). exists q', t', e'. eapply upd_same. exact N.
  - exists q, t, e. rewrite upd_other by exact D. exact N.
Qed.
Lemma scanning_publish : forall w i j ps b w', scanning w i -> (forall q t e, nth_error (y_ph w) j <> Some (YSub q t e)) ->
  y_publish w j ps b = Some w' -> scanning w' i.
Proof.
  intros w i j ps b w' (q & t & e & N) D H.
  assert (j <> i) as Dj by (intros ->; exact (D _ _ _ N)). unfold scanning, y_publish in *. destruct ps as [|[k x] ps].
  - exists q, t, e. destruct b; injection H as <-; cbn; rewrite upd_other by exact Dj; exact N.
  - destruct (uexec _ _); [|discriminate]. injection H as <-. exists q, t, e. cbn. rewrite upd_other by exact Dj. exact N.
Qed.
Lemma stuck_exec : forall bcast me seen w a w', yinv seen w -> stuck w -> yexec bcast me w a = Some w' ->
  stuck w' /\ forall i, scanning w i -> scanning w' i.
Proof.
  intros bcast me seen w a w' I (k & j & s & D) H. pose proof (ureach_inv _ (y_reach _ w I)) as U.
  destruct (yexec_steps _ _ _ _ _ H) as [acts R]. destruct (doomed_forever _ _ _ _ _ _ U D R) as [D' L].
  split; [exists k, j, s; exact D'|]. clear R acts D'. intros i Sc. pose proof Sc as (q & t & e & N).
  unfold yexec in H. destruct (y_dead w); [discriminate|]. destruct a as [|i0 q0|i0 src b known|i0 ok|i0|i0|i0|a].
  - cbn [uexec] in H. injection H as <-. exists q, t, e. cbn [y_ph]. rewrite nth_error_app1; [exact N|]. apply nth_error_Some. congruence.
  - destruct (nth_error (y_ph w) i0) as [[]|] eqn:N0; try discriminate. destruct (scan_frame _ _ _); [|injection H as <-; exact Sc].
    destruct (uexec (y_u w) _) as [u|] eqn:X; [|discriminate]. injection H as <-. apply (scanning_set (y_setu w u) i i0); [|exact Sc].
    cbn [y_setu y_ph]. intros ? ? ? C. congruence.
  - destruct (nth_error (y_ph w) i0) as [[]|] eqn:N0; try discriminate. destruct (handleMsg _ _ _). eapply scanning_publish; [exact Sc|intros; rewrite N0; discriminate|exact H].
  - destruct (nth_error (y_ph w) i0) as [[|q1 [] err|q1 s1 st [] err|q1 s1 st [] err|]|] eqn:N0; try discriminate; injection H as <-;
      (apply scanning_set; [intros; eauto; congruence|exact Sc]).
  - destruct (nth_error (y_ph w) i0) as [[|q1 [] err|q1 s1 st [] err|q1 s1 st [] err|]|] eqn:N0; try discriminate; injection H as <-;
      (apply scanning_set; [intros; eauto; congruence|exact Sc]).
  - destruct (nth_error (y_ph w) i0) as [[| |q1 s1 st t1 err| |]|] eqn:N0; try discriminate. destruct (err && scan_stops q1); injection H as <-.
    + exists q, t, e. unfold y_finish. cbn [y_ph]. rewrite upd_other by congruence. exact N.
    + apply scanning_set; [intros; congruence|exact Sc].
  - destruct (nth_error (y_ph w) i0) as [[| | |q1 s1 st [| |f e1] err|]|] eqn:N0; try discriminate. injection H as <-.
    exists q, t, e. unfold y_finish. cbn [y_ph]. rewrite upd_other by congruence. exact N.
  - destruct (y_inside a); [|discriminate]. destruct (uexec (y_u w) a) as [u|] eqn:X; [|discriminate].
    destruct (doomed_exec _ _ _ _ _ _ U D X) as [_ L1]. rewrite L1, Nat.eqb_refl in H. injection H as <-. exact Sc.
Qed.
Lemma stuck_run : forall bcast me l' l w w', yrun bcast me y_init l = Some w -> stuck w -> yrun bcast me w l' = Some w' ->
  stuck w' /\ forall i, scanning w i -> scanning w' i.
Proof.
  intros bcast me l' l w w' R S R'. pose proof (yinv_reached _ _ _ _ R) as I. clear R. revert S R'. generalize (received_in l), w, I. clear w I l.
  induction l' as [|a l' IH]; intros seen w I S R'; cbn in R'; [injection R' as <-; auto|].
  destruct (yexec bcast me w a) as [v|] eqn:X; [|discriminate]. destruct (stuck_exec _ _ _ _ _ _ I S X) as [S' K].
  destruct (IH _ v (yexec_inv _ _ _ _ _ _ I X) S' R') as [A B]. split; [exact A|]. intros i Sc. apply B, K, Sc.
Qed.

(** ** Progress *)
Lemma lift_quiet : forall bcast me acts w um, y_dead w = false -> Forall (fun a => y_inside a = true) acts ->
  urun (y_u w) acts = Some um -> (exists new, u_log um = new ++ u_log (y_u w) /\ forall e, In e new -> exists i s lo hi, e = USub i s lo hi) ->
  yrun bcast me w (map YIn acts) = Some (y_setu w um).
Proof.
  induction acts as [|a acts IH]; intros w um D F R (new & E & N); cbn in R.
  - injection R as <-. destruct w. reflexivity.
  - apply Forall_cons_iff in F. destruct F as [Fa F]. destruct (uexec (y_u w) a) as [u|] eqn:X; [|discriminate].
    cbn [map yrun]. assert (yexec bcast me w (YIn a) = Some (y_setu w u) /\ exists new', u_log um = new' ++ u_log u /\ forall e, In e new' -> exists i s lo hi, e = USub i s lo hi) as [Y M].
    { destruct (run_log _ _ _ R) as [n' E']. destruct (step_log _ _ _ X) as [S|[e S]].
      - split; [unfold yexec; rewrite D, Fa, X, S, Nat.eqb_refl; reflexivity|]. exists n'. split; [exact E'|]. intros e W. apply N.
        rewrite S in E'. rewrite E' in E. apply app_inv_tail in E. congruence.
      - rewrite S in E'. rewrite E' in E. change (n' ++ e :: u_log (y_u w)) with (n' ++ [e] ++ u_log (y_u w)) in E. rewrite app_assoc in E. apply app_inv_tail in E. subst new.
        destruct (N e) as (i & s & lo & hi & ->); [apply in_or_app; right; left; reflexivity|]. split.
        + unfold yexec. rewrite D, Fa, X, S. cbn [length]. rewrite (proj2 (Nat.eqb_neq _ _)) by lia. reflexivity.
        + exists n'. rewrite S. split; [exact E'|]. intros e W. apply N. apply in_or_app. left. exact W. }
    rewrite Y. change (y_setu w um) with (y_setu (y_setu w u) um). apply IH; [exact D|exact F|exact R|exact M].
Qed.

Lemma yin_way : forall l, forallb on_the_way (map YIn l) = true.
Proof. induction l; auto. Qed.
Lemma takes_result : forall bcast me w i q s st t e, y_dead w = false -> nth_error (y_ph w) i = Some (YTest q s st t e) ->
  exists l' w' f, yrun bcast me w l' = Some w' /\ y_done w' = f :: y_done w /\ sd_thread f = i /\ sd_req f = q /\ forallb on_the_way l' = true.
Proof.
  intros bcast me w i q s st t e D N.
  assert (forall w1 t1 e1, y_dead w1 = false -> y_done w1 = y_done w -> nth_error (y_ph w1) i = Some (YTest q s st t1 e1) -> (exists f e', t1 = TOffer f e') ->
    exists l' w' f, yrun bcast me w1 l' = Some w' /\ y_done w' = f :: y_done w /\ sd_thread f = i /\ sd_req f = q /\ forallb on_the_way l' = true) as T3.
  { intros w1 t1 e1 D1 E1 N1 (f & e' & ->). destruct (e1 && scan_stops q) eqn:B.
    - exists [YCheck i]. cbn [yrun]. unfold yexec. rewrite D1, N1, B. eexists _, _. split; [reflexivity|]. unfold y_finish. cbn [y_done]. rewrite E1.
      split; [reflexivity|]. split; [reflexivity|]. split; reflexivity.
    - exists [YCheck i; YTake i]. cbn [yrun]. unfold yexec at 1. rewrite D1, N1, B. unfold yexec. cbn [y_setph y_dead y_ph]. rewrite D1.
      erewrite upd_same by exact N1. eexists _, _. split; [reflexivity|]. unfold y_finish. cbn [y_done y_setph]. rewrite E1. split; [reflexivity|]. split; [reflexivity|]. split; reflexivity. }
  assert (forall w1 t1 e1, y_dead w1 = false -> y_done w1 = y_done w -> nth_error (y_ph w1) i = Some (YTest q s st t1 e1) -> t1 <> TNot ->
    exists l' w' f, yrun bcast me w1 l' = Some w' /\ y_done w' = f :: y_done w /\ sd_thread f = i /\ sd_req f = q /\ forallb on_the_way l' = true) as T2.
  { intros w1 t1 e1 D1 E1 N1 NT. destruct t1 as [|f|f e']; [now destruct NT| |eapply T3; eauto].
    destruct (T3 (y_setph w1 i (YTest q s st (TOffer f e1) e1)) (TOffer f e1) e1) as (l' & w' & g & R & Q); [exact D1|exact E1|cbn; eapply upd_same; exact N1|eauto|].
    exists (YOffer i :: l'), w', g. cbn [yrun]. unfold yexec. rewrite D1, N1. auto. }
  destruct t as [|f|f e']; [|eapply T2; [exact D|reflexivity|exact N|discriminate]|eapply T2; [exact D|reflexivity|exact N|discriminate]].
  edestruct (T2 (y_setph w i (YTest q s st (TSent (match scan_frame bcast me q with ROk (Some _) => negb true | _ => true end)) (match scan_frame bcast me q with ROk (Some _) => negb true | _ => true end))))
    as (l' & w' & g & R & Q); [exact D|reflexivity|cbn; eapply upd_same; exact N|discriminate|].
  exists (YTx i true :: l'), w', g. cbn [yrun]. unfold yexec. rewrite D, N. auto.
Qed.

Lemma finishes_free : forall bcast me l w i, yrun bcast me y_init l = Some w -> y_dead w = false -> u_lock (y_u w) = None -> scanning w i ->
  exists l' w' f, yrun bcast me w l' = Some w' /\ y_done w' = f :: y_done w /\ sd_thread f = i /\ forallb on_the_way l' = true.
Proof.
  intros bcast me l w i R D L (q & t & e & N). pose proof (yinv_reached _ _ _ _ R) as I. pose proof (ureach_inv _ (y_reach _ w I)) as U.
  pose proof (y_phs _ w I i) as P. unfold phase_ok in P. rewrite N in P. destruct (nth_error (u_thr (y_u w)) i) as [p|] eqn:Np; [|destruct P].
  assert (subscribing p = true) as Sp by (destruct p; try reflexivity; destruct P as [_ []]).
  destruct (ended_all _ _ _ U L Np Sp) as (acts & um & u' & new & s & st & Ru & F & Lm & Nw & Xm & L' & _ & _ & _).
  assert (yrun bcast me w (map YIn acts) = Some (y_setu w um)) as R1.
  { apply lift_quiet; [exact D| |exact Ru|exists new; split; [exact Lm|]; intros x W; destruct (Nw x W) as (s0 & lo & hi & ->); eauto].
    apply Forall_forall. intros a W. rewrite Forall_forall in F. destruct (F a W) as [->| ->]; reflexivity. }
  assert (yexec bcast me (y_setu w um) (YIn (VStep i)) = Some (y_setph (y_setu w u') i (YTest q s st t false))) as R2.
  { unfold yexec. cbn [y_setu y_dead y_inside y_u]. rewrite D, Xm, L', Lm. cbn [length]. rewrite (proj2 (Nat.eqb_neq _ _)) by lia. cbn [y_returned y_setu y_ph]. rewrite N. reflexivity. }
  destruct (takes_result bcast me (y_setph (y_setu w u') i (YTest q s st t false)) i q s st t false) as (l2 & w2 & f & R3 & Q1 & Q2 & _ & Q3);
    [exact D|cbn; eapply upd_same; exact N|].
  exists (map YIn acts ++ YIn (VStep i) :: l2), w2, f. rewrite yrun_app, R1. cbn [yrun]. rewrite R2. split; [exact R3|]. split; [exact Q1|]. split; [exact Q2|].
  rewrite forallb_app, yin_way. exact Q3.
Qed.

Lemma call_finishes : forall bcast me l w i, yrun bcast me y_init l = Some w -> y_dead w = false -> ~ stuck w -> holder_safe w -> scanning w i ->
  exists l' w' f, yrun bcast me w l' = Some w' /\ y_done w' = f :: y_done w /\ sd_thread f = i /\ forallb on_the_way l' = true.
Proof.
  intros bcast me l w i R D S HS Sc. destruct (u_lock (y_u w)) as [k|] eqn:L; [|eapply finishes_free; eassumption].
  pose proof (yinv_reached _ _ _ _ R) as I. pose proof (ureach_inv _ (y_reach _ w I)) as U.
  destruct (freed_all _ k U L) as (acts & um & u' & Ru & F & Lm & Xm & L' & Lk & Sb & Tk & Ot); [intros j s C; apply S; exists k, j, s; exact C|].
  assert (yrun bcast me w (map YIn acts) = Some (y_setu w um)) as R1.
  { apply lift_quiet; [exact D| |exact Ru|exists []; split; [exact Lm|intros e []]]. apply Forall_forall. intros a W. rewrite Forall_forall in F.
    specialize (F a W). destruct a; try reflexivity; destruct F. }
  destruct (a_held _ U k L) as [p Np]. pose proof (proj2 (a_lock _ U k p Np) L) as Hp.
  pose proof (y_phs _ w I k) as P. unfold phase_ok in P. rewrite Np in P.
  destruct (nth_error (y_ph w) k) as [[|q t e|q s st t e|q s st t e|[|[k0 x] ps] b]|] eqn:Nk; try (destruct p; try discriminate; destruct P; fail);
    try (destruct p; try discriminate; destruct P as [_ []]; fail).
  assert (exists w2, yexec bcast me (y_setu w um) (YIn (VStep k)) = Some w2 /\ y_publish (y_setu w u') k ps b = Some w2) as (w2 & R2 & PB).
  { assert (exists w2, y_publish (y_setu w u') k ps b = Some w2) as [w2 PB].
    { unfold y_publish. destruct ps as [|[k1 x1] ps]; [eauto|]. cbn [y_setu y_u uexec]. rewrite Tk. eauto. }
    exists w2. split; [|exact PB]. unfold yexec. cbn [y_setu y_dead y_inside y_u]. rewrite D, Xm, L', Lm. cbn [length].
    rewrite (proj2 (Nat.eqb_neq _ _)) by lia. cbn [y_returned y_setu y_ph]. rewrite Nk. exact PB. }
  assert (y_dead w2 = false /\ u_lock (y_u w2) = None /\ y_done w2 = y_done w) as (D2 & L2 & E2).
  { unfold y_publish in PB. destruct ps as [|[k1 x1] ps].
    - destruct b; [now destruct (HS k (k0, x) L)|]. injection PB as <-. cbn. auto.
    - cbn [y_setu y_u uexec] in PB. rewrite Tk in PB. injection PB as <-. cbn. auto. }
  assert (scanning w2 i) as S2.
  { eapply (scanning_publish (y_setu w u')); [exact Sc| |exact PB]. cbn [y_setu y_ph]. rewrite Nk. discriminate. }
  assert (yrun bcast me y_init (l ++ map YIn acts ++ [YIn (VStep k)]) = Some w2) as R3 by (rewrite yrun_app, R, yrun_app, R1; cbn [yrun]; rewrite R2; reflexivity).
  destruct (finishes_free _ _ _ _ i R3 D2 L2 S2) as (l3 & w3 & f & R4 & Q1 & Q2 & Q3).
  exists ((map YIn acts ++ [YIn (VStep k)]) ++ l3), w3, f. rewrite yrun_app, yrun_app, R1. cbn [yrun]. rewrite R2. split; [exact R4|]. rewrite <- E2. split; [exact Q1|]. split; [exact Q2|].
  rewrite !forallb_app, yin_way. exact Q3.
Qed.

(** ** Calm runs *)
Definition served (u : usys) (h : nat) : Prop := forall p, nth_error (u_thr u) h = Some p ->
  (forall id v, p = PubLock id v -> all_room u) /\ forall id l s, left_to p = Some (id, l) -> In s l -> queue u s = [].

Lemma queue_upd : forall u s x y s', nth_error (u_objs u) s = Some x -> sb_q y = sb_q x ->
  queue (u_setobjs u (upd (u_objs u) s y)) s' = queue u s'.
Proof.
  intros u s x y s' O E. unfold queue. ufields. destruct (Nat.eq_dec s s') as [<-|D].
  - erewrite upd_same by exact O. rewrite O. exact E.
  - rewrite upd_other by exact D. reflexivity.
Qed.
Lemma served_exec : forall u a u' h, uinv u -> y_inside a = true -> uexec u a = Some u' ->
  (forall j p, nth_error (u_thr u) j = Some p -> pub_key p <> None -> j = h) -> served u h -> served u' h.
Proof.
  intros u a u' h I Ia X Only S p' Np'.
  destruct a as [|i o|i|i|i]; try discriminate Ia; uexec_cases X; ufields; apply upd_inv in Np'; destruct Np' as [[-> ->]|[Dh Np']];
    try (split; [discriminate|cbn [left_to]; discriminate]);
    try (exfalso; apply Dh; erewrite <- (Only _ _ Hth) by discriminate; congruence; fail);
    try (exfalso; apply Dh; symmetry; eapply Only; [exact Hth|discriminate]);
    try (exfalso; apply Dh; eapply Only; [exact Hth|discriminate]);
    try (destruct (S _ Hth) as [S1 S2]; split; [discriminate|]; cbn [left_to]; intros id' l' s' E W; injection E as <- <-);
    try (destruct (S _ Np') as [S1 S2]; split; [intros id' v' E; specialize (S1 id' v' E); unfold all_room in *; ufields; intros s' W|intros id' l' s' E W; specialize (S2 id' l' s' E W)]).
  - exact (S1 id v eq_refl s' W).
  - exact (S2 id (n :: l) s' eq_refl W).
  - exact (S2 id (n :: l) s' eq_refl (or_intror W)).
  - refine (eq_trans (queue_upd u s _ _ s' Hob _) (S2 id (s :: rest) s' eq_refl W)). reflexivity.
  - destruct (d_todo u I _ _ _ _ _ Hth eq_refl) as [pre E]. pose proof (c_nodup u I) as ND. rewrite E in ND.
    assert (s <> s') as Ds. { intros <-. apply NoDup_remove_2 in ND. apply ND. apply in_or_app. right. exact W. }
    unfold queue. ufields. rewrite upd_other by exact Ds. exact (S2 id (s :: rest) s' eq_refl (or_intror W)).
  - refine (eq_trans (queue_upd u s _ _ s' Hob _) (S2 id rest s' eq_refl W)). reflexivity.
  - (* a new object *)
    specialize (S1 s' W). unfold queue in S1 |- *. ufields. rewrite nth_error_app1; [exact S1|].
    destruct (obj_of u s' I W) as [x O]. apply nth_error_Some. congruence.
  - unfold queue in S2 |- *. ufields. destruct (nth_error (u_objs u) s') eqn:O.
    + rewrite nth_error_app1 by (apply nth_error_Some; congruence). rewrite O. exact S2.
    + apply nth_error_None in O. rewrite nth_error_app2 by exact O. destruct (s' - length (u_objs u))%nat as [|[|?]]; reflexivity.
  - (* registered *)
    apply in_app_or in W. destruct W as [W|[<-|[]]]; [exact (S1 s' W)|]. unfold queue. ufields. rewrite Hob.
    destruct (c_fresh u I _ _ _ _ _ Hth Hob) as [E0 _]. exact E0.
  - exact S2.
  - exact (S1 s' W).
  - exact S2.
  - rewrite remove_sub_in in W by exact (c_nodup u I). exact (S1 s' (proj1 W)).
  - exact S2.
  - (* received *)
    specialize (S1 s' W). unfold queue in S1 |- *. ufields. destruct (Nat.eq_dec s s') as [<-|Ds]; [|rewrite upd_other by exact Ds; exact S1].
    rewrite Hob in S1. congruence.
  - unfold queue in S2 |- *. ufields. destruct (Nat.eq_dec s s') as [<-|Ds]; [|rewrite upd_other by exact Ds; exact S2].
    rewrite Hob in S2. congruence.
  - exact (S1 s' W).
  - exact S2.
Qed.

Definition handling (w : syst) (i : nat) : Prop := exists ps b, nth_error (y_ph w) i = Some (YHandle ps b).
Record cinv (w : syst) : Prop := {
  c_one : forall i ps b, nth_error (y_ph w) i = Some (YHandle ps b) -> exists m, ps = [m];
  c_same : forall i j, handling w i -> handling w j -> i = j;
  c_served : forall i, handling w i -> served (y_u w) i
}.
(** no new handler, and the manager seen by the one there is did not change *)
Lemma cinv_less : forall w w', cinv w -> (forall i ps b, nth_error (y_ph w') i = Some (YHandle ps b) -> nth_error (y_ph w) i = Some (YHandle ps b)) ->
  (forall i, handling w' i -> served (y_u w) i -> served (y_u w') i) -> cinv w'.
Proof.
  intros w w' C H S. assert (forall i, handling w' i -> handling w i) as HH by (intros i (ps & b & N); exists ps, b; auto). constructor.
  - intros i ps b N. eapply (c_one w C). apply H. exact N.
  - intros i j A B. apply (c_same w C); auto.
  - intros i A. apply S; [exact A|]. apply (c_served w C). auto.
Qed.
Lemma served_same : forall u u' h, nth_error (u_thr u') h = nth_error (u_thr u) h -> u_objs u' = u_objs u -> u_subs u' = u_subs u -> served u h -> served u' h.
Proof.
  intros u u' h E Eo Es S p N. rewrite E in N. destruct (S p N) as [A B]. unfold all_room, queue in *. rewrite Eo, Es. auto.
Qed.
Lemma set_less : forall w i x, (forall ps b, x <> YHandle ps b) -> forall j ps b, nth_error (upd (y_ph w) i x) j = Some (YHandle ps b) -> nth_error (y_ph w) j = Some (YHandle ps b).
Proof.
  intros w i x D j ps b N. apply upd_inv in N. destruct N as [[_ E]|[_ N]]; [symmetry in E; now destruct (D ps b)|exact N].
Qed.
Lemma publisher_handles : forall seen w j p, yinv seen w -> nth_error (u_thr (y_u w)) j = Some p -> pub_key p <> None -> handling w j.
Proof.
  intros seen w j p I N K. pose proof (y_phs seen w I j) as P. unfold phase_ok in P. rewrite N in P. unfold handling.
  destruct (nth_error (y_ph w) j) as [[|q t e|q s st t e|q s st t e|ps b]|]; try (eexists _, _; reflexivity);
    destruct p; try (now destruct K); try (destruct P; fail); destruct P as [_ []].
Qed.
Lemma calm_exec : forall bcast me seen w a w', yinv seen w -> cinv w ->
  (forall i src b known, a = YArrive i src b known -> published (fun _ => known) [(src, b)] = [] \/
     (exists p, published (fun _ => known) [(src, b)] = [p]) /\ quiet w) ->
  yexec bcast me w a = Some w' -> cinv w'.
Proof.
  intros bcast me seen w a w' I C Q H. unfold yexec in H. destruct (y_dead w); [discriminate|]. destruct a as [|i q|i src b known|i ok|i|i|i|a].
  - cbn [uexec] in H. injection H as <-. apply (cinv_less w); [exact C| |].
    + cbn [y_ph]. intros i ps b N. destruct (Nat.lt_ge_cases i (length (y_ph w))) as [L|L]; [rewrite nth_error_app1 in N by exact L; exact N|].
      rewrite nth_error_app2 in N by exact L. destruct (i - length (y_ph w))%nat as [|[|?]]; discriminate.
    + intros i (ps & b & N). cbn [y_u y_ph] in *. apply served_same; [|reflexivity|reflexivity]. ufields. apply nth_error_app1.
      rewrite <- (same_length seen w I). destruct (Nat.lt_ge_cases i (length (y_ph w))) as [L|L]; [exact L|].
      rewrite nth_error_app2 in N by exact L. destruct (i - length (y_ph w))%nat as [|[|?]]; discriminate.
  - destruct (nth_error (y_ph w) i) as [[]|] eqn:N; try discriminate. destruct (scan_frame _ _ _).
    2: { injection H as <-. apply (cinv_less w); auto. }
    pose proof (free_idle seen w i I N) as U. cbn [uexec] in H. rewrite U in H. injection H as <-. apply (cinv_less w); [exact C|cbn; apply set_less; discriminate|].
    intros j (ps & b & Nj). cbn in Nj |- *. apply served_same; [|reflexivity|reflexivity]. ufields. apply upd_other. intros <-. erewrite upd_same in Nj by exact N. discriminate.
  - destruct (nth_error (y_ph w) i) as [[]|] eqn:N; try discriminate. specialize (Q i src b known eq_refl).
    rewrite <- effect_pub_same in Q. destruct (handleMsg (fun _ => known) src b) as [eff panics] eqn:HM. cbn [fst] in Q.
    destruct Q as [E|[[m E] [Q1 Q2]]]; rewrite E in H; cbn [y_publish] in H.
    + assert (cinv (y_setph w i YFree)) as C1 by (apply (cinv_less w); [exact C|cbn; apply set_less; discriminate|auto]).
      destruct panics; injection H as <-; [|exact C1]. apply (cinv_less (y_setph w i YFree)); auto.
    + pose proof (free_idle seen w i I N) as U. unfold y_publish in H. destruct m as [k x]. cbn [uexec] in H. rewrite U in H. injection H as <-.
      assert (forall j ps b0, nth_error (upd (y_ph w) i (YHandle [(k, x)] panics)) j = Some (YHandle ps b0) -> j = i /\ ps = [(k, x)]) as HO.
      { intros j ps b0 Nj. apply upd_inv in Nj. destruct Nj as [[-> E1]|[_ Nj]]; [injection E1 as -> _; auto|now destruct (Q1 j ps b0)]. }
      constructor; cbn [y_ph y_u].
      * intros j ps b0 Nj. destruct (HO j ps b0 Nj) as [_ ->]. eauto.
      * intros j1 j2 (p1 & b1 & N1) (p2 & b2 & N2). cbn in N1, N2. destruct (HO _ _ _ N1) as [-> _]. destruct (HO _ _ _ N2) as [-> _]. reflexivity.
      * intros j (p1 & b1 & N1). cbn in N1. destruct (HO _ _ _ N1) as [-> _]. intros p Np. ufields. erewrite upd_same in Np by exact U. injection Np as <-.
        split; [intros; exact Q2|discriminate].
  - destruct (nth_error (y_ph w) i) as [[|q [] err|q s st [] err|q s st [] err|]|]; try discriminate; injection H as <-;
      (apply (cinv_less w); [exact C|cbn; apply set_less; discriminate|auto]).
  - destruct (nth_error (y_ph w) i) as [[|q [] err|q s st [] err|q s st [] err|]|]; try discriminate; injection H as <-;
      (apply (cinv_less w); [exact C|cbn; apply set_less; discriminate|auto]).
  - destruct (nth_error (y_ph w) i) as [[| |q s st t err| |]|]; try discriminate. destruct (err && scan_stops q); injection H as <-;
      (apply (cinv_less w); [exact C|cbn; apply set_less; discriminate|auto]).
  - destruct (nth_error (y_ph w) i) as [[| | |q s st [| |f e] err|]|]; try discriminate. injection H as <-.
      (apply (cinv_less w); [exact C|cbn; apply set_less; discriminate|auto]).
  - destruct (y_inside a) eqn:Ia; [|discriminate]. destruct (uexec (y_u w) a) as [u|] eqn:X; [|discriminate].
    pose proof (ureach_inv _ (y_reach _ w I)) as U.
    assert (cinv (y_setu w u)) as C1.
    { apply (cinv_less w); [exact C|auto|]. cbn [y_setu y_u]. intros h Hh S. eapply served_exec; [exact U|exact Ia|exact X| |exact S].
      intros j p Np K. apply (c_same w C); [eapply publisher_handles; eassumption|exact Hh]. }
    destruct (Nat.eqb _ _); [injection H as <-; exact C1|]. destruct (u_log u) as [|e log]; [injection H as <-; exact C1|].
    destruct e as [j k v|j|j s lo hi|j s st]; cbn [y_returned] in H; try (injection H as <-; exact C1); cbn [y_setu y_ph] in H;
      destruct (nth_error (y_ph w) j) as [[|q t err|q s1 st1 t err|q s1 st1 t err|[|m ps] b]|] eqn:N; try (injection H as <-; exact C1).
    + destruct (c_one w C _ _ _ N) as [m' E]. injection E as -> ->. cbn [y_publish] in H.
      assert (cinv (y_setph (y_setu w u) j YFree)) as C2 by (apply (cinv_less (y_setu w u)); [exact C1|cbn; apply set_less; discriminate|auto]).
      destruct b; injection H as <-; [|exact C2]. apply (cinv_less (y_setph (y_setu w u) j YFree)); auto.
    + injection H as <-. apply (cinv_less (y_setu w u)); [exact C1|cbn; apply set_less; discriminate|auto].
Qed.
Lemma calm_free : forall bcast me l w, calm bcast me y_init l -> yrun bcast me y_init l = Some w -> ~ stuck w.
Proof.
  intros bcast me l w CL R. assert (cinv w /\ exists seen, yinv seen w) as [C [seen I]].
  { assert (cinv y_init) as C0 by (constructor; [intros [|i] ps b N; discriminate|intros [|i] j (? & ? & N); discriminate|intros [|i] (? & ? & N); discriminate]).
    pose proof y_init_inv as I0. revert CL R C0 I0. generalize (@nil (Z * pub)) y_init. induction l as [|a l IH]; intros seen v CL R C I; cbn in R.
    - injection R as <-. eauto.
    - destruct CL as [Q CL]. destruct (yexec bcast me v a) as [v'|] eqn:X; [|discriminate].
      eapply (IH _ v' CL R); [|exact (yexec_inv _ _ _ _ _ _ I X)]. eapply calm_exec; [exact I|exact C| |exact X]. intros i src b known ->. exact Q. }
  intros (k & j & s & p & id & lft & x & store & Np & E & W & O & _ & Q & _).
  assert (handling w k) as Hk by (eapply publisher_handles; [exact I|exact Np|destruct p; discriminate]).
  destruct (c_served w C k Hk p Np) as [_ S]. specialize (S id lft s E W). unfold queue in S. rewrite O in S. contradiction.
Qed.

(** ** Errors *)
Definition sender_true (x : sphase) : Prop :=
  match x with YSub _ t _ | YTest _ _ _ t _ | YWait _ _ _ t _ => match t with TNot => True | TSent _ => False | TOffer f e => e = f end | _ => True end.
Record einv (bcast : address) (me : option address) (w : syst) : Prop := {
  e_phase : forall i x, nth_error (y_ph w) i = Some x -> sender_true x;
  e_done : forall f, In f (y_done w) -> (sd_result f = XErr <-> scan_stops (sd_req f) = true /\ sd_failed f = true)
}.
Lemma e_set : forall bcast me w w' i x, einv bcast me w -> y_ph w' = upd (y_ph w) i x -> y_done w' = y_done w -> sender_true x -> einv bcast me w'.
Proof.
  intros bcast me w w' i x [A B] E D S. constructor; [|rewrite D; exact B]. intros j y N. rewrite E in N. apply upd_inv in N. destruct N as [[_ ->]|[_ N]]; [exact S|eapply A; exact N].
Qed.
Lemma e_publish : forall bcast me w i ps b w', einv bcast me w -> y_publish w i ps b = Some w' -> einv bcast me w'.
Proof.
  intros bcast me w i ps b w' E H. unfold y_publish in H. destruct ps as [|[k x] ps].
  - destruct b; injection H as <-; (eapply e_set; [exact E|reflexivity|reflexivity|exact Logic.I]).
  - destruct (uexec _ _); [|discriminate]. injection H as <-. eapply e_set; [exact E|reflexivity|reflexivity|exact Logic.I].
Qed.
Lemma result_noerr : forall q vs, scan_result q vs <> XErr.
Proof. intros [] vs; discriminate. Qed.
Lemma e_exec : forall bcast me seen w a w', yinv seen w -> einv bcast me w -> (forall i ok, a <> YTx i ok) -> yexec bcast me w a = Some w' -> einv bcast me w'.
Proof.
  intros bcast me seen w a w' I E NT H. unfold yexec in H. destruct (y_dead w); [discriminate|]. destruct a as [|i q|i src b known|i ok|i|i|i|a].
  - cbn [uexec] in H. injection H as <-. destruct E as [A B]. constructor; [|exact B]. cbn [y_ph]. intros i x N.
    destruct (Nat.lt_ge_cases i (length (y_ph w))) as [L|L]; [rewrite nth_error_app1 in N by exact L; eapply A; exact N|].
    rewrite nth_error_app2 in N by exact L. destruct (i - length (y_ph w))%nat as [|[|?]]; try discriminate. injection N as <-. exact Logic.I.
  - destruct (nth_error (y_ph w) i) as [[]|] eqn:N; try discriminate. destruct (scan_frame _ _ _).
    + destruct (uexec _ _); [|discriminate]. injection H as <-. eapply e_set; [exact E|reflexivity|reflexivity|exact Logic.I].
    + injection H as <-. destruct E. constructor; assumption.
  - destruct (nth_error (y_ph w) i) as [[]|] eqn:N; try discriminate. destruct (handleMsg _ _ _). eapply e_publish; eassumption.
  - now destruct (NT i ok).
  - destruct (nth_error (y_ph w) i) as [[|q [] err|q s st [] err|q s st [] err|]|] eqn:N; try discriminate; now destruct (e_phase _ _ w E _ _ N).
  - destruct (nth_error (y_ph w) i) as [[| |q s st t err| |]|] eqn:N; try discriminate. pose proof (e_phase _ _ w E _ _ N) as T. cbn in T.
    destruct (err && scan_stops q) eqn:B; injection H as <-; [|eapply e_set; [exact E|reflexivity|reflexivity|exact T]].
    apply andb_true_iff in B. destruct B as [-> B]. at_phase seen w I N P U. destruct p; try (destruct P; fail). destruct P as [S _].
    destruct E as [A D]. constructor; unfold y_finish; cbn [y_ph y_done].
    + intros j y Nj. apply upd_inv in Nj. destruct Nj as [[_ ->]|[_ Nj]]; [exact Logic.I|eapply A; exact Nj].
    + intros f [<-|W]; [|exact (D f W)]. cbn [sd_result sd_req sd_failed]. split; [|reflexivity]. intros _. split; [exact B|].
      destruct t as [|f|f e]; cbn in S; [discriminate|destruct T|tauto].
  - destruct (nth_error (y_ph w) i) as [[| | |q s st [| |f e] err|]|] eqn:N; try discriminate. pose proof (e_phase _ _ w E _ _ N) as T. cbn in T. subst e. injection H as <-.
    destruct E as [A D]. constructor; unfold y_finish; cbn [y_ph y_done].
    + intros j y Nj. apply upd_inv in Nj. destruct Nj as [[_ ->]|[_ Nj]]; [exact Logic.I|eapply A; exact Nj].
    + intros g [<-|W]; [|exact (D g W)]. cbn [sd_result sd_req sd_failed]. destruct (f && scan_stops q) eqn:B.
      * apply andb_true_iff in B. split; [tauto|reflexivity].
      * split; [intros C; now destruct (result_noerr _ _ C)|]. intros [C1 C2]. rewrite C1, C2 in B. discriminate.
  - destruct (y_inside a); [|discriminate]. destruct (uexec (y_u w) a) as [u|] eqn:X; [|discriminate].
    assert (einv bcast me (y_setu w u)) as E1 by (destruct E; constructor; assumption).
    destruct (Nat.eqb _ _); [injection H as <-; exact E1|]. destruct (u_log u) as [|e log]; [injection H as <-; exact E1|].
    destruct e as [j k v|j|j s lo hi|j s st]; cbn [y_returned] in H; try (injection H as <-; exact E1); cbn [y_setu y_ph] in H;
      destruct (nth_error (y_ph w) j) as [[|q t err|q s1 st1 t err|q s1 st1 t err|[|m ps] b]|] eqn:N; try (injection H as <-; exact E1).
    + eapply e_publish; [exact E1|exact H].
    + injection H as <-. pose proof (e_phase _ _ w E _ _ N) as T. eapply e_set; [exact E1|reflexivity|reflexivity|exact T].
Qed.
(** Send and the channel at one go *)
Lemma e_pair : forall bcast me w i ok w1 w2, einv bcast me w -> yexec bcast me w (YTx i ok) = Some w1 -> yexec bcast me w1 (YOffer i) = Some w2 -> einv bcast me w2.
Proof.
  intros bcast me w i ok w1 w2 E X1 X2. unfold yexec in X1. destruct (y_dead w) eqn:D; [discriminate|].
  destruct (nth_error (y_ph w) i) as [[|q [] err|q s st [] err|q s st [] err|]|] eqn:N; try discriminate; injection X1 as <-;
    unfold yexec in X2; cbn [y_setph y_dead y_ph] in X2; rewrite D in X2; erewrite upd_same in X2 by exact N; injection X2 as <-;
    (eapply e_set; [exact E|cbn; apply upd_twice|reflexivity|cbn; reflexivity]).
Qed.
Lemma prompt_errors : forall bcast me l w f, prompt l -> yrun bcast me y_init l = Some w -> In f (y_done w) ->
  (sd_result f = XErr <-> scan_stops (sd_req f) = true /\ sd_failed f = true).
Proof.
  intros bcast me l w f PR R W. assert (einv bcast me w) as E; [|exact (e_done _ _ w E f W)].
  assert (einv bcast me y_init) as E0 by (constructor; [intros [|i] x N; discriminate|intros g []]).
  assert (forall n l, (length l <= n)%nat -> forall seen v, yinv seen v -> einv bcast me v -> prompt l -> yrun bcast me v l = Some w -> einv bcast me w) as K.
  { clear. induction n as [|n IH]; intros l L seen v I E PR R.
    - destruct l; [|cbn in L; lia]. cbn in R. injection R as <-. exact E.
    - destruct l as [|a l]; [cbn in R; injection R as <-; exact E|]. cbn in L, R. destruct (yexec bcast me v a) as [v'|] eqn:X; [|discriminate].
      pose proof (yexec_inv _ _ _ _ _ _ I X) as I'.
      destruct a as [|i q|i src b known|i ok|i|i|i|a]; try (eapply (IH l); [lia|exact I'| |exact PR|exact R]; refine (e_exec _ _ _ _ _ _ I E _ X); discriminate).
      destruct l as [|a2 l]; [destruct PR|]. destruct a2; try destruct PR. cbn in R. destruct (yexec bcast me v' (YOffer i0)) as [v2|] eqn:X2; [|discriminate].
      subst i0. cbn in L. eapply (IH l); [lia|eapply yexec_inv; [exact I'|exact X2]|eapply e_pair; eassumption|assumption|exact R]. }
  eapply (K (length l) l (le_n _) []); [exact y_init_inv|exact E0|exact PR|exact R].
Qed.
Lemma never_reported : forall bcast me l w f, yrun bcast me y_init l = Some w -> In f (y_done w) -> sd_req f = QRouters \/ sd_req f = QNumbers -> sd_result f <> XErr.
Proof.
  intros bcast me l w f R W Q C. destruct (y_fin _ w (yinv_reached _ _ _ _ R) f W) as [_ [(_ & S & _)|E]].
  - destruct Q as [Q|Q]; rewrite Q in S; discriminate.
  - rewrite C in E. symmetry in E. exact (result_noerr _ _ E).
Qed.
Lemma prompt_who : forall bcast me l w f, prompt l -> yrun bcast me y_init l = Some w -> In f (y_done w) ->
  (sd_result f = XErr <-> (exists wh, sd_req f = QWho wh) /\ sd_failed f = true).
Proof.
  intros bcast me l w f P R W. rewrite (prompt_errors _ _ _ _ _ P R W). destruct (sd_req f); cbn [scan_stops]; split; intros [A B]; split; auto; eauto; try discriminate; destruct A; discriminate.
Qed.

(** ** What was sent *)
Definition sender_frame (bcast : address) (me : option address) (x : sphase) : Prop :=
  match x with
  | YSub q t _ | YTest q _ _ t _ | YWait q _ _ t _ =>
      match t with TSent false | TOffer false _ => exists d, scan_frame bcast me q = ROk (Some d) | _ => True end
  | _ => True
  end.
Record tinv (bcast : address) (me : option address) (w : syst) : Prop := {
  t_phase : forall i x, nth_error (y_ph w) i = Some x -> sender_frame bcast me x;
  t_done : forall f, In f (y_done w) -> sd_failed f = false -> exists d, scan_frame bcast me (sd_req f) = ROk (Some d) /\ sd_sent f = Some d
}.
Lemma t_set : forall bcast me w w' i x, tinv bcast me w -> y_ph w' = upd (y_ph w) i x -> y_done w' = y_done w -> sender_frame bcast me x -> tinv bcast me w'.
Proof.
  intros bcast me w w' i x [A B] E D S. constructor; [|rewrite D; exact B]. intros j y N. rewrite E in N. apply upd_inv in N. destruct N as [[_ ->]|[_ N]]; [exact S|eapply A; exact N].
Qed.
Lemma t_publish : forall bcast me w i ps b w', tinv bcast me w -> y_publish w i ps b = Some w' -> tinv bcast me w'.
Proof.
  intros bcast me w i ps b w' E H. unfold y_publish in H. destruct ps as [|[k x] ps].
  - destruct b; injection H as <-; (eapply t_set; [exact E|reflexivity|reflexivity|exact Logic.I]).
  - destruct (uexec _ _); [|discriminate]. injection H as <-. eapply t_set; [exact E|reflexivity|reflexivity|exact Logic.I].
Qed.
Lemma t_finish : forall bcast me w i old q t s st r, tinv bcast me w -> nth_error (y_ph w) i = Some old ->
  match t with TNot => False | TSent f | TOffer f _ => f = false -> exists d, scan_frame bcast me q = ROk (Some d) end ->
  tinv bcast me (y_finish bcast me w i q t s st r).
Proof.
  intros bcast me w i old q t s st r [A D] N T. constructor; unfold y_finish; cbn [y_ph y_done].
  - intros j y Nj. apply upd_inv in Nj. destruct Nj as [[_ ->]|[_ Nj]]; [exact Logic.I|eapply A; exact Nj].
  - intros f [<-|W]; [|exact (D f W)]. cbn [sd_failed sd_req sd_sent]. intros F. destruct t as [|f|f e]; [destruct T| |];
      destruct (T F) as [d E]; exists d; rewrite E; auto.
Qed.
Lemma t_exec : forall bcast me seen w a w', yinv seen w -> tinv bcast me w -> yexec bcast me w a = Some w' -> tinv bcast me w'.
Proof.
  intros bcast me seen w a w' I E H. unfold yexec in H. destruct (y_dead w); [discriminate|]. destruct a as [|i q|i src b known|i ok|i|i|i|a].
  - cbn [uexec] in H. injection H as <-. destruct E as [A B]. constructor; [|exact B]. cbn [y_ph]. intros i x N.
    destruct (Nat.lt_ge_cases i (length (y_ph w))) as [L|L]; [rewrite nth_error_app1 in N by exact L; eapply A; exact N|].
    rewrite nth_error_app2 in N by exact L. destruct (i - length (y_ph w))%nat as [|[|?]]; try discriminate. injection N as <-. exact Logic.I.
  - destruct (nth_error (y_ph w) i) as [[]|] eqn:N; try discriminate. destruct (scan_frame _ _ _).
    + destruct (uexec _ _); [|discriminate]. injection H as <-. eapply t_set; [exact E|reflexivity|reflexivity|exact Logic.I].
    + injection H as <-. destruct E. constructor; assumption.
  - destruct (nth_error (y_ph w) i) as [[]|] eqn:N; try discriminate. destruct (handleMsg _ _ _). eapply t_publish; eassumption.
  - assert (forall q, sender_frame bcast me (YSub q (TSent (match scan_frame bcast me q with ROk (Some _) => negb ok | _ => true end)) true)) as SF.
    { intros q. cbn. destruct (scan_frame bcast me q) as [[d|]|]; cbn; [destruct ok; cbn; eauto|exact Logic.I|exact Logic.I]. }
    destruct (nth_error (y_ph w) i) as [[|q [] err|q s st [] err|q s st [] err|]|] eqn:N; try discriminate; injection H as <-;
      (eapply t_set; [exact E|reflexivity|reflexivity|exact (SF q)]).
  - destruct (nth_error (y_ph w) i) as [[|q [] err|q s st [] err|q s st [] err|]|] eqn:N; try discriminate; injection H as <-;
      (eapply t_set; [exact E|reflexivity|reflexivity|exact (t_phase _ _ w E _ _ N)]).
  - destruct (nth_error (y_ph w) i) as [[| |q s st t err| |]|] eqn:N; try discriminate. pose proof (t_phase _ _ w E _ _ N) as T.
    destruct (err && scan_stops q) eqn:B; injection H as <-; [|eapply t_set; [exact E|reflexivity|reflexivity|exact T]].
    apply andb_true_iff in B. destruct B as [-> B]. at_phase seen w I N P U. destruct p; try (destruct P; fail). destruct P as [S _].
    eapply t_finish; [exact E|exact N|]. cbn in S, T. destruct t as [|f|f e]; [discriminate| |]; intros ->; exact T.
  - destruct (nth_error (y_ph w) i) as [[| | |q s st [| |f e] err|]|] eqn:N; try discriminate. pose proof (t_phase _ _ w E _ _ N) as T. injection H as <-.
    eapply t_finish; [exact E|exact N|]. cbn in T. intros ->. exact T.
  - destruct (y_inside a); [|discriminate]. destruct (uexec (y_u w) a) as [u|] eqn:X; [|discriminate].
    assert (tinv bcast me (y_setu w u)) as E1 by (destruct E; constructor; assumption).
    destruct (Nat.eqb _ _); [injection H as <-; exact E1|]. destruct (u_log u) as [|e log]; [injection H as <-; exact E1|].
    destruct e as [j k v|j|j s lo hi|j s st]; cbn [y_returned] in H; try (injection H as <-; exact E1); cbn [y_setu y_ph] in H;
      destruct (nth_error (y_ph w) j) as [[|q t err|q s1 st1 t err|q s1 st1 t err|[|m ps] b]|] eqn:N; try (injection H as <-; exact E1).
    + eapply t_publish; [exact E1|exact H].
    + injection H as <-. pose proof (t_phase _ _ w E _ _ N) as T. eapply t_set; [exact E1|reflexivity|reflexivity|exact T].
Qed.
Lemma scan_sent : forall bcast me l w f, yrun bcast me y_init l = Some w -> In f (y_done w) -> sd_failed f = false ->
  exists d, scan_frame bcast me (sd_req f) = ROk (Some d) /\ sd_sent f = Some d.
Proof.
  intros bcast me l w f R W. assert (tinv bcast me w) as T; [|exact (t_done _ _ w T f W)].
  assert (tinv bcast me y_init) as T0 by (constructor; [intros [|i] x N; discriminate|intros g []]).
  assert (forall l seen v, yinv seen v -> tinv bcast me v -> yrun bcast me v l = Some w -> tinv bcast me w) as K.
  { clear. induction l as [|a l IH]; intros seen v I E R; cbn in R; [injection R as <-; exact E|].
    destruct (yexec bcast me v a) as [v'|] eqn:X; [|discriminate]. eapply IH; [eapply yexec_inv; eassumption|eapply t_exec; eassumption|exact R]. }
  exact (K l [] y_init y_init_inv T0 R).
Qed.
Lemma scan_asked : forall bcast me l w f ip port, addr_UDPAddr bcast = Some (ip, port) -> yrun bcast me y_init l = Some w -> In f (y_done w) -> sd_failed f = false ->
  exists d, sd_sent f = Some d /\
  match sd_req f with
  | QWho wh => addr_ok (whois_dest bcast wh) -> opt_addr_ok me -> wh_low wh < 2147483648 -> wh_high wh < 2147483648 ->
      exists apdu, d = mkDgram ip port (spec_bvlc (send_func (whois_dest bcast wh) None)
        (spec_npdu (mkNpdu 1 (Some (whois_dest bcast wh)) me 0 false 0 false 0 255) ++ apdu))
      /\ forall i, requested_low wh <= i <= requested_high wh -> asks apdu i
  | QRouters => a_net bcast = 0 -> match me with Some a => a_net a = 0 | None => True end -> d = mkDgram ip port (spec_bvlc 11 [1; 128; 0])
  | QNumbers => a_net bcast = 0 -> match me with Some a => a_net a = 0 | None => True end -> d = mkDgram ip port (spec_bvlc 11 [1; 128; 18])
  end.
Proof.
  intros bcast me l w f ip port HU R W F. destruct (scan_sent _ _ _ _ _ R W F) as (d & E & S). exists d. split; [exact S|].
  destruct (sd_req f) as [wh| |]; cbn [scan_frame] in E.
  - intros A1 A2 A3 A4. destruct (whois_asks bcast me wh ip port HU A1 A2 A3 A4) as (apdu & E' & A). exists apdu. split; [congruence|exact A].
  - intros A1 A2. pose proof (routers_request _ _ _ _ A1 A2 HU). congruence.
  - intros A1 A2. pose proof (numbers_request _ _ _ _ A1 A2 HU). congruence.
Qed.
