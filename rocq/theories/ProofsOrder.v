(** * Calls on a network without late answers *)

Require Import List ZArith Bool Lia Permutation.
From Verif Require Import ModelClient ModelSystem SpecSystem SpecOrder.
From Verif Require Import SpecWire SpecLayers SpecServices SpecObs SpecClient ProofsServiceProps ProofsCall.
From Verif Require ModelTsm SpecTsm ProofsTsm ProofsTsmProps.
From Verif Require Import ProofsSystem ProofsSystemProps.
Import ListNotations.
Import ModelTsm SpecTsm ProofsTsm ProofsTsmProps.
Open Scope Z_scope.

(** ** The invariant *)

Definition hist_of (x : phase) : option (list reply * list datagram) :=
  match x with
  | NRun _ _ _ h tr _ | NRecv _ _ _ h tr _ | NPut _ _ _ h tr _ => Some (h, tr)
  | _ => None
  end.

Definition replies (R : datagram -> payload -> Prop) (ins : list arrival) (h : list reply) (tr : list datagram) : Prop :=
  forall v, In (inr v) h -> exists a d, nth_error ins v = Some a /\ In d tr /\ R d (ar_load a).

(** Handler [i] of arrival [a] answers a call in progress, and if it has found a
    transaction already, that call's. *)
Definition meets (R : datagram -> payload -> Prop) (w : world) (i : nat) (a : arrival) : Prop :=
  exists j x g d, nth_error (w_ph w) j = Some x /\ owns x = Some (ar_id a, g) /\ In d (sent_by x) /\ R d (ar_load a)
  /\ forall p id v sg, nth_error (sy_thr (w_tsm w)) i = Some p -> sending p = Some (id, v, sg) -> sg = g.

Record ordered (R : datagram -> payload -> Prop) (w : world) : Prop := {
  o_handle : forall i v a, nth_error (w_ph w) i = Some (NHandle v) -> nth_error (w_in w) v = Some a -> meets R w i a;
  o_hist : forall i x h tr, nth_error (w_ph w) i = Some x -> hist_of x = Some (h, tr) -> replies R (w_in w) h tr;
  o_done : forall f, In f (w_done w) -> replies R (w_in w) (fi_hist f) (fi_sent f)
}.

Lemma replies_mono : forall R ins e h tr tr', replies R ins h tr -> incl tr tr' -> replies R (ins ++ e) h tr'.
Proof.
  intros R ins e h tr tr' H I v Hv. destruct (H v Hv) as (a & d & N & Hd & HR). exists a, d.
  split; [apply nth_error_grow; exact N|]. split; [apply I; exact Hd|exact HR].
Qed.

(** What a step has to leave as it is. *)
Lemma ordered_step : forall me l R w w' e, winvA me l w -> ordered R w -> w_in w' = w_in w ++ e ->
  (forall i v, nth_error (w_ph w') i = Some (NHandle v) ->
     (exists a, nth_error (w_in w') v = Some a /\ meets R w' i a) \/
     (nth_error (w_ph w) i = Some (NHandle v) /\
      forall p', nth_error (sy_thr (w_tsm w')) i = Some p' ->
        sending p' = None \/ exists p, nth_error (sy_thr (w_tsm w)) i = Some p /\ sending p = sending p')) ->
  (forall i v a j x g, nth_error (w_ph w') i = Some (NHandle v) -> nth_error (w_ph w) i = Some (NHandle v) ->
     nth_error (w_in w) v = Some a ->
     nth_error (w_ph w) j = Some x -> owns x = Some (ar_id a, g) -> sent_by x <> [] ->
     exists x', nth_error (w_ph w') j = Some x' /\ owns x' = owns x /\ incl (sent_by x) (sent_by x')) ->
  (forall i x h tr, nth_error (w_ph w') i = Some x -> hist_of x = Some (h, tr) ->
     replies R (w_in w') h tr \/
     exists x0 tr0, nth_error (w_ph w) i = Some x0 /\ hist_of x0 = Some (h, tr0) /\ incl tr0 tr) ->
  (forall f, In f (w_done w') -> In f (w_done w) \/ replies R (w_in w') (fi_hist f) (fi_sent f)) ->
  ordered R w'.
Proof.
  intros me l R w w' e IA [OH OP OD] Ein HH HR HP HD. constructor.
  - intros i v a N Na. destruct (HH i v N) as [(a' & Na' & M)|[N0 HS]].
    + rewrite Na' in Na. injection Na as <-. exact M.
    + destruct (pc_of _ _ _ _ _ IA N0) as (p0 & _ & F). cbn [fits] in F. destruct F as (a0 & Na0 & _).
      assert (a = a0) as -> by (rewrite Ein, (nth_error_grow _ _ e _ _ Na0) in Na; congruence).
      destruct (OH i v a0 N0 Na0) as (j & x & g & d & Nj & Ow & Hd & HRd & Hs).
      destruct (HR i v a0 j x g N N0 Na0 Nj Ow) as (x' & Nj' & Ow' & Inc).
      { intro C. rewrite C in Hd. contradiction. }
      exists j, x', g, d. split; [exact Nj'|]. split; [congruence|]. split; [apply Inc; exact Hd|]. split; [exact HRd|].
      intros p id v0 sg Np Es. destruct (HS p Np) as [Q|(p1 & Np1 & Q)]; [congruence|].
      eapply Hs; [exact Np1|]. rewrite Q. exact Es.
  - intros i x h tr N H. destruct (HP i x h tr N H) as [Q|(x0 & tr0 & N0 & H0 & Inc)]; [exact Q|].
    rewrite Ein. eapply replies_mono; [eapply OP; eassumption|exact Inc].
  - intros f Hf. destruct (HD f Hf) as [Q|Q]; [|exact Q]. rewrite Ein. eapply replies_mono; [apply OD; exact Q|intros y Hy; exact Hy].
Qed.

Lemma found_lookup : forall s a s' i id v g, exec s a = Some s' -> sy_log s' = ESendFound i id v g :: sy_log s ->
  exists o, lookup id (sy_table s) = Some (o, g).
Proof.
  intros s a s' i id v g H L. exec_cases H; fields;
    try discriminate L; try (exfalso; symmetry in L; apply (f_equal (@length _)) in L; cbn in L; lia);
    try (injection L as <- <- <- <-; eauto).
Qed.

(** A step of goroutine [i] that leaves its transaction, its transmissions and the
    other goroutines alone. *)
Lemma ordered_one : forall me l R w w' e i x x', winvA me l w -> ordered R w ->
  nth_error (w_ph w) i = Some x -> w_ph w' = upd (w_ph w) i x' -> w_in w' = w_in w ++ e ->
  (forall j, j <> i -> nth_error (sy_thr (w_tsm w')) j = nth_error (sy_thr (w_tsm w)) j) ->
  (forall v, x' = NHandle v -> (exists a, nth_error (w_in w') v = Some a /\ meets R w' i a) \/
     (x = NHandle v /\ forall p', nth_error (sy_thr (w_tsm w')) i = Some p' ->
        sending p' = None \/ exists p, nth_error (sy_thr (w_tsm w)) i = Some p /\ sending p = sending p')) ->
  (sent_by x <> [] -> (owns x' = owns x /\ incl (sent_by x) (sent_by x')) \/
     forall id g, owns x = Some (id, g) -> forall k v a, nth_error (w_ph w) k = Some (NHandle v) -> nth_error (w_in w) v = Some a -> ar_id a <> id) ->
  (forall h tr, hist_of x' = Some (h, tr) -> replies R (w_in w') h tr \/ exists tr0, hist_of x = Some (h, tr0) /\ incl tr0 tr) ->
  (forall f, In f (w_done w') -> In f (w_done w) \/ replies R (w_in w') (fi_hist f) (fi_sent f)) ->
  ordered R w'.
Proof.
  intros me l R w w' e i x x' IA O N P Ein Ht HH HS HP HD.
  eapply (ordered_step me l R w w' e IA O Ein); [| | |exact HD].
  - intros k v Nk. rewrite P in Nk. destruct (upd_inv _ _ _ _ _ _ Nk) as [[-> E]|[D Nk']].
    + destruct (HH v (eq_sym E)) as [Q|[-> Q]]; [left; exact Q|right; split; [exact N|exact Q]].
    + right. split; [exact Nk'|]. intros p' Np. rewrite (Ht k D) in Np. right. exists p'. split; [exact Np|reflexivity].
  - intros k v a j y g Nk Nk0 Na Nj Ow Sn. rewrite P. destruct (Nat.eq_dec j i) as [->|D].
    + assert (y = x) as -> by congruence. destruct (HS Sn) as [[E I]|Q].
      * exists x'. split; [eapply upd_same; exact N|]. auto.
      * exfalso. eapply Q; [exact Ow|exact Nk0|exact Na|reflexivity].
    + exists y. rewrite upd_other by auto. split; [exact Nj|]. split; [reflexivity|intros z Hz; exact Hz].
  - intros k y h tr Nk Hy. rewrite P in Nk. destruct (upd_inv _ _ _ _ _ _ Nk) as [[-> ->]|[D Nk']].
    + destruct (HP h tr Hy) as [Q|(tr0 & H0 & I)]; [left; exact Q|]. right. exists x, tr0. auto.
    + right. exists y, tr. split; [exact Nk'|]. split; [exact Hy|intros z Hz; exact Hz].
Qed.

Lemma call_thr : forall s i o s' j, exec s (ACall i o) = Some s' -> j <> i -> nth_error (sy_thr s') j = nth_error (sy_thr s) j.
Proof. intros s i o s' j E D. destruct (exec_call _ _ _ _ E) as [_ ->]. fields. apply upd_other. auto. Qed.

Lemma call_entry : forall s i o s', exec s (ACall i o) = Some s' -> nth_error (sy_thr s') i = Some (entry_of o).
Proof. intros s i o s' E. destruct (exec_call _ _ _ _ E) as [N ->]. fields. eapply upd_same. exact N. Qed.

Lemma kill_ordered : forall R w, ordered R w -> ordered R (kill w).
Proof. intros R w [A B C]. constructor; assumption. Qed.

Lemma inc_refl : forall A (l : list A), incl l l. Proof. intros A l x H. exact H. Qed.
Lemma nil_r : forall A (l : list A), l = l ++ []. Proof. intros. symmetry. apply app_nil_r. Qed.

(** A call's answer is delivered to this call. *)
Lemma delivered_to : forall me l R w i j v0 a0 sid v c sg rq rid rg h tr k,
  winvA me l w -> winvB w -> ordered R w ->
  nth_error (w_ph w) i = Some (NHandle v0) -> nth_error (w_in w) v0 = Some a0 ->
  nth_error (sy_thr (w_tsm w)) i = Some (SendWait sid v (Some c) sg) -> sid = ar_id a0 ->
  nth_error (w_ph w) j = Some (NRecv rq rid rg h tr k) ->
  nth_error (sy_thr (w_tsm w)) j = Some (RecvWait rid (Some c) rg) ->
  exists d, In d tr /\ R d (ar_load a0).
Proof.
  intros me l R w i j v0 a0 sid v c sg rq rid rg h tr k IA IB O Ni Na Ti Es Nj Tj.
  destruct (winvA_inv _ _ _ IA) as (I1 & I2 & I3).
  destruct (o_handle _ _ O i v0 a0 Ni Na) as (j0 & x & g & d & Nx & Ow & Hd & HR & Hs).
  assert (sg = g) as -> by (eapply Hs; [exact Ti|reflexivity]).
  assert (Ru : running x = true) by (destruct x; cbn in *; try contradiction; reflexivity).
  subst sid.
  destruct (k_found _ I3 _ _ _ _ _ Ti eq_refl) as [_ [(o1 & T1 & D1)|(k1 & Q1)]];
    [|exfalso; eapply (b_open _ IB); [exact Nx|exact Ow|exact Ru|exact Q1]].
  destruct (k_found _ I3 _ _ _ _ _ Tj eq_refl) as [_ [(o2 & T2 & D2)|(k1 & Q1)]];
    [|exfalso; eapply (b_open _ IB); [exact Nj|reflexivity|reflexivity|exact Q1]].
  assert (o1 = o2) as <- by (eapply (j_inj _ I2); eassumption).
  pose proof (tab_inj _ _ _ (j_tab _ I2) T1 T2 eq_refl) as E.
  injection E as Ea Eb. rewrite Ea in Ow.
  assert (j0 = j) as -> by (eapply (b_uniq _ IB); [exact Nx|exact Nj|exact Ow|reflexivity]).
  assert (x = NRecv rq rid rg h tr k) as -> by congruence. exists d. split; [exact Hd|exact HR].
Qed.

Lemma order_step : forall me l R w a w', wrun me w_init l = Some w -> ordered R w -> in_order R w a ->
  wexec me w a = Some w' -> ordered R w'.
Proof.
  intros me l R w a w' Run O IO H. destruct (wreach _ _ _ Run) as [IA IB].
  destruct (winvA_inv _ _ _ IA) as (I1 & I2 & I3).
  pose proof H as Hex.
  unfold wexec in H. destruct (w_dead w) eqn:Dd; [discriminate|].
  destruct a as [|i rq|i src b|i ok|i|a].
  - destruct (exec (w_tsm w) ASpawn) as [s|] eqn:E; [|discriminate]. injection H as <-.
    assert (s = set_thr (w_tsm w) (sy_thr (w_tsm w) ++ [PIdle])) as ->.
    { unfold exec in E. destruct (sy_crash (w_tsm w)); [discriminate|]. injection E as <-. reflexivity. }
    assert (forall j (x' : phase), nth_error (w_ph w ++ [NFree]) j = Some x' -> x' = NFree \/ nth_error (w_ph w) j = Some x') as Q.
    { intros j x' N. destruct (Nat.lt_ge_cases j (length (w_ph w))) as [Lt|Ge].
      - rewrite nth_error_app1 in N by exact Lt. auto.
      - rewrite nth_error_app2 in N by exact Ge. left.
        destruct (j - length (w_ph w))%nat as [|[|m]]; cbn in N; congruence. }
    eapply (ordered_step me l R w _ [] IA O); cbn [w_in w_ph w_tsm w_done]; fields.
    + apply nil_r.
    + intros j v N. destruct (Q j _ N) as [C|N1]; [discriminate|]. right. split; [exact N1|].
      intros p' Np. right. exists p'. split; [|reflexivity].
      rewrite nth_error_app1 in Np; [exact Np|]. rewrite <- (a_len _ _ _ IA). apply nth_error_Some. congruence.
    + intros j v a k x g _ _ _ N _ _. exists x. split; [apply nth_error_grow; exact N|]. split; [reflexivity|apply inc_refl].
    + intros j x h tr N Hh. destruct (Q j _ N) as [->|N1]; [discriminate|]. right. exists x, tr. split; [exact N1|]. split; [exact Hh|apply inc_refl].
    + auto.
  - destruct (nth_error (w_ph w) i) as [[]|] eqn:N; try discriminate.
    destruct (exec (w_tsm w) _) as [s|] eqn:E; [|discriminate]. injection H as <-.
    eapply (ordered_one me l R w _ [] i NFree (NId rq) IA O N); cbn [w_in w_ph w_tsm w_done with_ph with_tsm];
      try reflexivity; try apply nil_r; try discriminate; auto.
    + intros j D. eapply call_thr; eassumption.
  - destruct (nth_error (w_ph w) i) as [[]|] eqn:N; try discriminate.
    destruct (handleMsg (fun _ => true) src b) as [eff pan] eqn:Hm.
    destruct (delivery eff) as [[id p]|] eqn:De.
    + destruct (exec (w_tsm w) _) as [s|] eqn:E; [|discriminate]. injection H as <-.
      cbn [in_order] in IO. rewrite Hm in IO. cbn [fst] in IO.
      destruct (IO id p (delivery_in _ _ _ De)) as (j & x & d & Nj & Ou & Hd & HR).
      apply outstanding_owns in Ou. destruct Ou as [g Ow].
      eapply (ordered_one me l R w _ [mkArr src b id p] i NFree (NHandle (length (w_in w))) IA O N);
        cbn [w_in w_ph w_tsm w_done]; try reflexivity; try discriminate; auto.
      * intros k D. eapply call_thr; eassumption.
      * intros v Ev. injection Ev as <-. left. eexists. split.
        -- rewrite nth_error_app2 by apply Nat.le_refl. rewrite Nat.sub_diag. reflexivity.
        -- exists j, x, g, d. cbn [w_ph w_tsm ar_id ar_load]. split.
           ++ rewrite upd_other; [exact Nj|]. intros <-. rewrite N in Nj. injection Nj as <-. contradiction Hd.
           ++ split; [exact Ow|]. split; [exact Hd|]. split; [exact HR|].
              intros q id0 v0 sg Nq. rewrite (call_entry _ _ _ _ E) in Nq. injection Nq as <-. discriminate.
    + destruct (sy_crash (w_tsm w)); [discriminate|]. injection H as <-. destruct pan; [apply kill_ordered|]; exact O.
  - destruct (nth_error (w_ph w) i) as [[| |rq id g h tr [r|d k]| | | |]|] eqn:N; try discriminate.
    destruct ok.
    + destruct (exec (w_tsm w) _) as [s|] eqn:E; [|discriminate]. injection H as <-.
      eapply (ordered_one me l R w _ [] i _ (NRecv rq id g h (tr ++ [d]) k) IA O N); cbn [w_in w_ph w_tsm w_done with_ph with_tsm];
        try reflexivity; try apply nil_r; try discriminate; auto.
      * intros j D. eapply call_thr; eassumption.
      * intros _. left. split; [reflexivity|]. cbn [sent_by]. intros z Hz. apply in_or_app. auto.
      * intros h0 tr0 E0. injection E0 as <- <-. right. exists tr. split; [reflexivity|]. intros z Hz. apply in_or_app. auto.
    + destruct (sy_crash (w_tsm w)); [discriminate|]. injection H as <-.
      eapply (ordered_one me l R w _ [] i _ _ IA O N); cbn [w_in w_ph w_tsm w_done with_ph with_tsm];
        try reflexivity; try apply nil_r; try discriminate; auto.
      * intros _. left. split; [reflexivity|]. cbn [sent_by]. intros z Hz. apply in_or_app. auto.
      * intros h0 tr0 E0. injection E0 as <- <-. left. intros v Hv. apply in_app_or in Hv. destruct Hv as [Hv|[Hv|[]]]; [|discriminate].
        destruct (o_hist _ _ O i _ h tr N eq_refl v Hv) as (a & d0 & Na & Hd & HR). exists a, d0. split; [exact Na|].
        split; [apply in_or_app; auto|exact HR].
  - destruct (nth_error (w_ph w) i) as [[| |rq id g h tr [r|d k]| | | |]|] eqn:N; try discriminate.
    assert (forall s, exec (w_tsm w) (ACall i (CallPut id)) = Some s ->
      ordered R (with_ph (with_tsm w s) i (NPut rq id g h tr r))) as G.
    { intros s E. eapply (ordered_one me l R w _ [] i _ _ IA O N); cbn [w_in w_ph w_tsm w_done with_ph with_tsm];
        try reflexivity; try apply nil_r; try discriminate; auto.
      * intros j D. eapply call_thr; eassumption.
      * intros _. right. intros id0 g0 Ow. cbn in Ow. injection Ow as <- <-. intros k v a Nk Na.
        cbn [in_order] in IO. eapply IO; [exact N|reflexivity|exact Nk|exact Na].
      * intros h0 tr0 E0. injection E0 as <- <-. right. exists tr. split; [reflexivity|apply inc_refl]. }
    destruct r; try discriminate;
      try (destruct (exec (w_tsm w) _) as [s|] eqn:E; [|discriminate]; injection H as <-; apply G; reflexivity).
    destruct (sy_crash (w_tsm w)); [discriminate|]. injection H as <-. apply kill_ordered. exact O.
  - destruct (inside a) eqn:Ia; [|discriminate].
    destruct (exec (w_tsm w) a) as [s|] eqn:E; [|discriminate].
    assert (NO : forall e, In e (sy_log s) -> odd e = false).
    { intros e He. eapply (none_odd me (l ++ [WTsm a]) w').
      - clear - Run Hex. revert Run. generalize w_init. induction l as [|b l IH]; intros w0 R0; cbn [wrun app] in *.
        + injection R0 as ->. rewrite Hex. reflexivity.
        + destruct (wexec me w0 b); [|discriminate]. apply IH. exact R0.
      - destruct (Nat.eqb _ _); [injection H as <-; exact He|]. destruct (sy_log s) eqn:Ls; injection H as <-; [contradiction He|]. rewrite returned_tsm. cbn [with_tsm w_tsm]. rewrite Ls. exact He. }
    assert (SAME : forall (Ph : w_ph w = w_ph w),
       (forall k v p', nth_error (w_ph w) k = Some (NHandle v) -> nth_error (sy_thr s) k = Some p' ->
          sending p' = None \/ (exists p, nth_error (sy_thr (w_tsm w)) k = Some p /\ sending p = sending p') \/
          exists a, nth_error (w_in w) v = Some a /\ meets R (with_tsm w s) k a) -> ordered R (with_tsm w s)).
    { intros _ Q. eapply (ordered_step me l R w _ [] IA O); cbn [w_in w_ph w_tsm w_done with_tsm].
      - apply nil_r.
      - intros k v Nk. destruct (nth_error (sy_thr s) k) as [p'|] eqn:Np.
        + destruct (Q k v p' Nk Np) as [A|[A|A]]; [right|right|left; exact A]; (split; [exact Nk|]); intros q Nq; injection Nq as <-; auto.
        + right. split; [exact Nk|]. discriminate.
      - intros k v b j x g _ _ _ Nj _ _. exists x. split; [exact Nj|]. split; [reflexivity|apply inc_refl].
      - intros k x h tr Nk Hh. right. exists x, tr. split; [exact Nk|]. split; [exact Hh|apply inc_refl].
      - auto. }
    destruct (inside_tstep _ _ _ Ia E)
      as [Th Tab Gen Log|i p p' Np M Th Tab Gen Log|i p p' e Np En Th Tab Gen Log
         |i id o Np Lk Th Tab Gen Log|i id o g Np Th Tab Gen Log
         |i j sid v c sg rid rg D Np Nq Th Tab Gen Log|i Th Tab Gen Cr Log].
    + rewrite Log, Nat.eqb_refl in H. injection H as <-. apply SAME; [reflexivity|].
      intros k v p' _ Np. rewrite Th in Np. right. left. exists p'. auto.
    + rewrite Log, Nat.eqb_refl in H. injection H as <-. apply SAME; [reflexivity|].
      intros k v q _ Nq. rewrite Th in Nq. destruct (upd_inv _ _ _ _ _ _ Nq) as [[-> ->]|[D Nk]].
      * destruct M; try (left; reflexivity). right. left. eexists. split; [exact Np|reflexivity].
      * right. left. exists q. auto.
    + rewrite Log, log_grows in H. injection H as <-.
      assert (Ht : forall k, k <> i -> nth_error (sy_thr s) k = nth_error (sy_thr (w_tsm w)) k).
      { intros k D. rewrite Th. apply upd_other. auto. }
      destruct (ph_of _ _ _ _ _ IA Np) as (x & N & F).
      destruct En; cbn [returned]; cbn [with_tsm w_ph] in *;
        try (specialize (NO _ ltac:(rewrite Log; left; reflexivity)); discriminate NO).
      * rewrite N. destruct x; cbn [fits] in F; try discriminate F; try contradiction F;
          try (destruct F as (q & Fa & []); fail). rewrite start_none.
        eapply (ordered_one me l R w _ [] i _ NFree IA O N); cbn [w_in w_ph w_tsm w_done with_ph with_tsm with_done];
          try reflexivity; try apply nil_r; try discriminate; auto.
        -- intros f [<-|Hf]; [right|auto]. intros v [].
      * rewrite N. destruct x; cbn [fits] in F; try discriminate F; try contradiction F;
          try (destruct F as (q & Fa & []); fail). rewrite start_none.
        eapply (ordered_one me l R w _ [] i _ NFree IA O N); cbn [w_in w_ph w_tsm w_done with_ph with_tsm with_done];
          try reflexivity; try apply nil_r; try discriminate; auto.
        -- intros f [<-|Hf]; [right|auto]. intros v [].
      * apply SAME; [reflexivity|]. intros k v q _ Nq. destruct (Nat.eq_dec k i) as [->|D].
        -- rewrite Th, (upd_same _ _ _ _ _ Np) in Nq. injection Nq as <-. left. reflexivity.
        -- rewrite (Ht k D) in Nq. right. left. exists q. auto.
      * apply SAME; [reflexivity|]. intros k v0 q Nk Nq. destruct (Nat.eq_dec k i) as [->|D].
        -- right. right. rewrite N in Nk. injection Nk as ->. cbn [fits] in F. destruct F as (b & Nb & -> & Ev).
           exists b. split; [exact Nb|]. destruct (o_handle _ _ O i v0 b N Nb) as (j & x & g0 & d & Nj & Ow & Hd & HR & Hs).
           exists j, x, g0, d. cbn [with_tsm w_ph w_tsm]. split; [exact Nj|]. split; [exact Ow|]. split; [exact Hd|]. split; [exact HR|].
           intros q0 id0 v1 sg Nq0 Es. rewrite Th, (upd_same _ _ _ _ _ Np) in Nq0. injection Nq0 as <-. cbn in Es. injection Es as _ _ <-.
           destruct (found_lookup _ _ _ _ _ _ _ E Log) as (o1 & L1).
           destruct (b_own _ IB _ _ _ _ Nj Ow) as (o2 & T2). eapply table_key; eassumption.
        -- rewrite (Ht k D) in Nq. right. left. exists q. auto.
      * destruct x; cbn [fits] in F; try discriminate F; try contradiction F. destruct F as (q & Fa & -> & ->).
        rewrite N. unfold handled. cbn [with_ph with_tsm w_in]. rewrite Fa.
        assert (ordered R (with_ph (with_tsm w s) i NFree)) as Q.
        { eapply (ordered_one me l R w _ [] i _ NFree IA O N); cbn [w_in w_ph w_tsm w_done with_ph with_tsm with_done];
            try reflexivity; try apply nil_r; try discriminate; auto. }
        destruct (snd _); [apply kill_ordered|]; exact Q.
      * destruct x; cbn [fits] in F; try discriminate F; try contradiction F;
          try (destruct F as (q & Fa & []); fail). destruct F as [-> ->].
        unfold received. cbn [with_tsm w_ph]. rewrite N.
        eapply (ordered_one me l R w _ [] i _ _ IA O N); cbn [w_in w_ph w_tsm w_done with_ph with_tsm with_done];
          try reflexivity; try apply nil_r; try discriminate; auto.
        -- intros _. left. split; [reflexivity|apply inc_refl].
        -- intros h0 tr0 E0. injection E0 as <- <-. left. intros v Hv. apply in_app_or in Hv. destruct Hv as [Hv|[Hv|[]]]; [|discriminate].
           exact (o_hist _ _ O i _ h tr N eq_refl v Hv).
    + rewrite Log, log_grows in H. injection H as <-.
      destruct (ph_of _ _ _ _ _ IA Np) as (x & N & F).
      destruct x; cbn [fits] in F; try discriminate F; try contradiction F; try (destruct F as (q & Fa & []); fail).
      cbn [returned with_tsm w_ph]. rewrite N.
      eapply (ordered_one me l R w _ [] i _ _ IA O N); cbn [w_in w_ph w_tsm w_done with_ph with_tsm with_done];
        try reflexivity; try apply nil_r; try discriminate; auto.
      * intros k D. rewrite Th. apply upd_other. auto.
      * intros h0 tr0 E0. injection E0 as <- <-. left. intros v [].
    + rewrite Log, log_grows in H. injection H as <-.
      destruct (ph_of _ _ _ _ _ IA Np) as (x & N & F).
      destruct x; cbn [fits] in F; try discriminate F; try contradiction F; try (destruct F as (q & Fa & []); fail).
      cbn [returned with_tsm w_ph]. rewrite N.
      eapply (ordered_one me l R w _ [] i _ NFree IA O N); cbn [w_in w_ph w_tsm w_done with_ph with_tsm with_done];
        try reflexivity; try apply nil_r; try discriminate; auto.
      * intros k D. rewrite Th. apply upd_other. auto.
      * intros f [<-|Hf]; [right|auto]. exact (o_hist _ _ O i _ _ _ N eq_refl).
    + rewrite Log, log_grows in H. injection H as <-.
      destruct (ph_of _ _ _ _ _ IA Np) as (x & N & F).
      destruct x; cbn [fits] in F; try discriminate F; try contradiction F.
      destruct F as (q & Fa & -> & ->).
      destruct (ph_of _ _ _ _ _ IA Nq) as (x & N2 & F2).
      destruct x; cbn [fits] in F2; try discriminate F2; try contradiction F2;
        try (destruct F2 as (q2 & Fa2 & []); fail).
      destruct F2 as [<- <-].
      destruct (delivered_to _ _ _ _ _ _ _ _ _ _ _ _ _ _ _ _ _ _ IA IB O N Fa Np eq_refl N2 Nq) as (d & Hd & HR).
      cbn [returned]. unfold received. cbn [with_tsm w_ph]. rewrite N2, Nat2Z.id.
      cbn [with_ph with_tsm w_ph]. rewrite upd_other by auto. rewrite N. unfold handled.
      cbn [with_ph w_in with_tsm]. rewrite Fa.
      match goal with |- context [if ?b then kill ?w1 else _] =>
        assert (ordered R w1) as Q; [|destruct b; [apply kill_ordered|]; exact Q] end.
      eapply (ordered_step me l R w _ [] IA O); cbn [w_in w_ph w_tsm w_done with_ph with_tsm].
      * apply nil_r.
      * intros k0 v3 Nk. destruct (upd_inv _ _ _ _ _ _ Nk) as [[-> C]|[D1 Nk1]]; [discriminate|].
        destruct (upd_inv _ _ _ _ _ _ Nk1) as [[-> C]|[D2 Nk2]]; [discriminate|].
        right. split; [exact Nk2|]. intros p' Np'. rewrite Th, !upd_other in Np' by auto. right. exists p'. auto.
      * intros k0 v3 a0 j0 x g0 Nk Nk0 Na Nj0 Ow Sn.
        destruct (Nat.eq_dec j0 i) as [->|D1]; [rewrite N in Nj0; injection Nj0 as <-; contradiction Sn; reflexivity|].
        destruct (Nat.eq_dec j0 j) as [->|D2].
        -- rewrite N2 in Nj0. injection Nj0 as <-. eexists. split.
           ++ rewrite upd_other by auto. eapply upd_same. exact N2.
           ++ split; [reflexivity|apply inc_refl].
        -- exists x. rewrite !upd_other by auto. split; [exact Nj0|]. split; [reflexivity|apply inc_refl].
      * intros k0 x h0 tr0 Nk Hh. destruct (upd_inv _ _ _ _ _ _ Nk) as [[-> ->]|[D1 Nk1]]; [discriminate|].
        destruct (upd_inv _ _ _ _ _ _ Nk1) as [[-> ->]|[D2 Nk2]].
        -- left. injection Hh as <- <-. intros v1 Hv. apply in_app_or in Hv. destruct Hv as [Hv|[Hv|[]]].
           ++ exact (o_hist _ _ O j _ h tr N2 eq_refl v1 Hv).
           ++ injection Hv as <-. exists q, d. auto.
        -- right. exists x, tr0. split; [exact Nk2|]. split; [exact Hh|apply inc_refl].
      * auto.
    + rewrite Log, log_grows in H. injection H as <-. cbn [returned]. apply SAME; [reflexivity|].
      intros k v p' _ Np. rewrite Th in Np. right. left. exists p'. auto.
Qed.

(** ** Runs *)

Lemma orderly_snoc : forall me R a l w, orderly me R w (l ++ [a]) ->
  orderly me R w l /\ forall w', wrun me w l = Some w' -> in_order R w' a.
Proof.
  intros me R a. induction l as [|b l IH]; intros w H; cbn [app orderly wrun] in *.
  - split; [exact I|]. intros w' E. injection E as <-. apply H.
  - destruct H as [H1 H2]. destruct (wexec me w b) as [w1|]; [|split; [split; [exact H1|exact I]|discriminate]].
    destruct (IH w1 H2) as [A B]. split; [split; assumption|exact B].
Qed.

Lemma wreachO : forall me R l w, wrun me w_init l = Some w -> orderly me R w_init l -> ordered R w.
Proof.
  intros me R. apply (wrun_ind me (fun l w => orderly me R w_init l -> ordered R w)).
  - intros _. constructor; [intros [|i]|intros [|i]|]; cbn; try discriminate. intros f [].
  - intros l w a w' Run _ _ IH E H. destruct (orderly_snoc _ _ _ _ _ H) as [H1 H2].
    eapply order_step; [exact Run|apply IH; exact H1|apply H2; exact Run|exact E].
Qed.

Lemma own_replies : forall me R l w f, wrun me w_init l = Some w -> orderly me R w_init l -> In f (w_done w) ->
  exists e, ev_id e = fi_id f /\ alone e me (fi_req f) = (fi_sent f, fi_result f) /\ replies_to R (fi_sent f) e.
Proof.
  intros me R l w f H Or Hf. pose proof (o_done _ _ (wreachO _ _ _ _ H Or) f Hf) as Rp.
  destruct (wreach _ _ _ H) as [IA IB]. pose proof (a_done _ _ _ IA f Hf) as D.
  unfold done_ok in D. destruct (fi_id f) as [id|].
  - destruct D as [F Q]. exists (env_of (Some id) (map (told (w_in w)) (fi_hist f))). split; [reflexivity|]. split.
    + rewrite alone_interp. cbn [env_of ev_id]. apply (feed_interp (Some id) [] _ _ _ _ F). eapply told_plain. exact Q.
    + intros k g p E. cbn in E.
      destruct (nth_in_or_default k (map (told (w_in w)) (fi_hist f)) (inl CSend)) as [J|J]; [|rewrite J in E; discriminate].
      apply in_map_iff in J. destruct J as (x & Ex & Ix). rewrite <- Ex in E.
      destruct x as [e|v]; cbn in E; [destruct e; discriminate|].
      destruct (Rp v Ix) as (a & d & Na & Hd & HR). rewrite Na in E. injection E as <-. exists d. auto.
  - destruct D as (_ & -> & F).
    exists (mkEnv None (fun _ _ => mkAtt true None)). split; [reflexivity|]. split.
    + rewrite alone_interp. cbn [ev_id]. rewrite F. reflexivity.
    + intros k g p Ep. discriminate.
Qed.

Lemma orderly_up : forall me R l w, wrun me w_init l = Some w -> orderly me R w_init l -> sy_crash (w_tsm w) = false.
Proof.
  intros me R l w H Or. pose proof (wreachO _ _ _ _ H Or) as O. destruct (wreach _ _ _ H) as [IA IB].
  destruct (winvA_inv _ _ _ IA) as (I1 & I2 & I3).
  destruct (sy_crash (w_tsm w)) eqn:C; [exfalso|reflexivity].
  destruct (k_crash _ I3 C) as (i & id & v & c & g & t & El & Ni & _ & _ & k & Hk).
  destruct (ph_of _ _ _ _ _ IA Ni) as (x & Nx & F).
  destruct x; cbn [fits] in F; try discriminate F; try contradiction F. destruct F as (a & Na & -> & ->).
  destruct (o_handle _ _ O _ _ _ Nx Na) as (j & y & g0 & d & Ny & Ow & Hd & _ & Hs).
  assert (g = g0) as -> by (eapply Hs; [exact Ni|reflexivity]).
  eapply (b_open _ IB); [exact Ny|exact Ow| |rewrite El; right; exact Hk].
  destruct y; cbn in *; try contradiction; reflexivity.
Qed.

(** ** Reads and writes *)

Lemma rp_loop_true : forall n k e dest data last tr r g vals (ok : property_data -> Prop),
  send_dgram dest data None = Some g ->
  (forall k pl, at_reply (ev_att e k g) = Some pl -> In g tr -> vals pl) ->
  (forall pl, vals pl -> (exists out, ok out /\ exists b, pl = PBytes b /\ rp_accepts b out) \/ exists c x, pl = PErr c x) ->
  rp_loop n k e dest data last = (tr, r) -> (exists out, ok out /\ r = COk out) \/ exists err, r = CErr err.
Proof.
  intros n. induction n as [|n IH]; intros k e dest data last tr r g vals ok Sg A V H; cbn [rp_loop] in H.
  - injection H as <- <-. right. eexists. reflexivity.
  - unfold exchange in H. rewrite Sg in H.
    assert (Rt : forall err tr r, (let '(tr', r') := rp_loop n (S k) e dest data err in ([g] ++ tr', r')) = (tr, r) ->
       (forall k pl, at_reply (ev_att e k g) = Some pl -> In g tr -> vals pl) ->
       (exists out, ok out /\ r = COk out) \/ exists err, r = CErr err).
    { intros err tr1 r1 H1 A1. destruct (rp_loop n (S k) e dest data err) as [tr' r'] eqn:E. injection H1 as <- <-.
      eapply IH; [exact Sg| |exact V|exact E]. intros k0 pl Hp _. eapply A1; [exact Hp|]. left. reflexivity. }
    destruct (at_sent (ev_att e k g)); [|eapply Rt; eassumption].
    destruct (at_reply (ev_att e k g)) as [pl|] eqn:Er; [|eapply Rt; eassumption].
    assert (In g tr) as Ig.
    { destruct pl as [b|c x]; [|injection H as <- <-; left; reflexivity].
      destruct (check_apdu _) as [[x|] d]; [destruct (rp_loop _ _ _ _ _ _); injection H as <- <-; left; reflexivity|].
      destruct (dec_ReadProperty d) as [[[out|] [x|]] d'| |];
        try (injection H as <- <-; left; reflexivity); destruct (rp_loop _ _ _ _ _ _); injection H as <- <-; left; reflexivity. }
    destruct (V pl (A _ _ Er Ig)) as [(out & Ok & b & -> & d1 & d2 & E1 & E2 & E3)|(c & x & ->)].
    + rewrite E1, E2, E3 in H. injection H as <- <-. left. exists out. auto.
    + injection H as <- <-. right. eexists. reflexivity.
Qed.

Lemma reads_right : forall me R l w f dev ip port o p idx vals,
  wrun me w_init l = Some w -> orderly me R w_init l -> In f (w_done w) ->
  fi_req f = RqRead dev (request o p idx) ->
  routable dev ip port -> addr_ok (addr_SetLength (dv_addr dev)) -> opt_addr_ok me ->
  valid_oid o -> valid_property p -> in_u32 idx ->
  answers_truly me R dev ip port o p idx vals ->
  (exists vs, vals vs /\ fi_result f = COk (AnRead (answer o p idx (one_or_list (map shown vs)))))
  \/ exists err, fi_result f = CErr err.
Proof.
  intros me R l w f dev ip port o p idx vals Run Or Hf Erq Hr Ha Hm Ho Hp Hi Tr.
  destruct (own_replies _ _ _ _ _ Run Or Hf) as (e & _ & Al & Rp). rewrite Erq in Al. cbn [alone] in Al.
  destruct (ReadProperty e me dev (request o p idx)) as [tr r] eqn:ER. cbn [both] in Al. injection Al as Et Er. rewrite <- Et in *.
  unfold ReadProperty in ER. destruct (ev_id e) as [id|]; [|injection ER as <- <-; right; eexists; symmetry; exact Er].
  destruct (header_ok (addr_SetLength (dv_addr dev)) me Ha Hm) as [EH HO]. rewrite EH in ER.
  assert (Hb : is_byte (u8 id)) by (unfold is_byte, u8; lia).
  rewrite enc_read in ER by assumption. cbn [ebuf] in ER.
  assert (Hp' : in_u32 p) by (red in Hp; red; lia).
  set (data := spec_npdu (request_npdu (addr_SetLength (dv_addr dev)) me) ++ spec_read_request (u8 id) o p idx) in *.
  assert (HL : zlen data <= 65531).
  { unfold data. rewrite zlen_app. pose proof (npdu_len _ HO). unfold spec_read_request. rewrite zlen_app. pose proof (reference_len o p idx Hp' Hi).
    change (zlen (spec_request (u8 id) 12)) with 4. lia. }
  assert (Sg : send_dgram (addr_SetLength (dv_addr dev)) data None = Some (read_datagram me dev ip port (u8 id) o p idx)).
  { unfold send_dgram. rewrite udp_setlength. unfold routable in Hr. rewrite Hr, frame_small by exact HL. reflexivity. }
  assert (All : forall n k e last tr r g, send_dgram (addr_SetLength (dv_addr dev)) data None = Some g ->
     rp_loop n k e (addr_SetLength (dv_addr dev)) data last = (tr, r) -> forall g', In g' tr -> g' = g).
  { clear. intros n. induction n as [|n IH]; intros k e last tr r g Sg H g' Hg; cbn [rp_loop] in H.
    - injection H as <- <-. contradiction Hg.
    - unfold exchange in H. rewrite Sg in H.
      assert (Rt : forall err tr r, (let '(tr', r') := rp_loop n (S k) e (addr_SetLength (dv_addr dev)) data err in ([g] ++ tr', r')) = (tr, r) ->
         In g' tr -> g' = g).
      { intros err tr1 r1 H1 I1. destruct (rp_loop n (S k) e _ data err) as [tr' r'] eqn:E. injection H1 as <- <-.
        destruct I1 as [<-|I1]; [reflexivity|]. eapply IH; eassumption. }
      assert (forall r0 tr r : _, ([g], r0) = (tr, r) :> call property_data -> In g' tr -> g' = g) as One.
      { intros r0 tr1 r1 H1 I1. injection H1 as <- _. destruct I1 as [<-|[]]. reflexivity. }
      destruct (at_sent (ev_att e k g)); [|eapply Rt; eassumption].
      destruct (at_reply (ev_att e k g)) as [[b|c x]|]; [|eapply One; eassumption|eapply Rt; eassumption].
      destruct (check_apdu _) as [[x|] d]; [eapply Rt; eassumption|].
      destruct (dec_ReadProperty d) as [[[out|] [x|]] d'| |]; try (eapply Rt; eassumption); eapply One; eassumption. }
  specialize (All _ _ _ _ _ _ _ Sg ER).
  destruct (rp_loop_true _ _ _ _ _ _ _ _ _ (fun pl => R (read_datagram me dev ip port (u8 id) o p idx) pl)
    (fun out => exists vs, vals vs /\ out = answer o p idx (one_or_list (map shown vs))) Sg
    ltac:(intros k pl Hk Hg; destruct (Rp k _ pl Hk) as (g' & I' & R'); rewrite (All g' I') in R'; exact R')
    ltac:(intros pl HR; destruct (Tr (u8 id) pl HR) as [(vs & V & S & ->)|Q]; [left|right; exact Q];
          eexists; split; [exists vs; split; [exact V|reflexivity]|]; eexists; split; [reflexivity|]; apply read_ack; assumption) ER)
    as [(out & (vs & V & ->) & ->)|(err & ->)].
  - left. exists vs. split; [exact V|]. symmetry. exact Er.
  - right. eexists. symmetry. exact Er.
Qed.

Lemma writes_right : forall me R l w f dev wp, wrun me w_init l = Some w -> orderly me R w_init l -> In f (w_done w) ->
  fi_req f = RqWrite dev wp -> fi_result f = COk AnDone ->
  exists g b, In g (fi_sent f) /\ R g (PBytes b).
Proof.
  intros me R l w f dev wp Run Or Hf Erq Ers.
  destruct (own_replies _ _ _ _ _ Run Or Hf) as (e & _ & Al & Rp). rewrite Erq, Ers in Al. cbn [alone] in Al.
  destruct (WriteProperty e me dev wp) as [tr r] eqn:ER. cbn [both] in Al. injection Al as Et Er. rewrite <- Et in *.
  unfold WriteProperty in ER. destruct (ev_id e) as [id|]; [|injection ER as <- <-; discriminate].
  destruct (enc_NPDU _ _) as [en|]; [|injection ER as <- <-; discriminate].
  destruct (enc_WriteProperty _ _ _) as [[en2 y]|]; [|injection ER as <- <-; discriminate].
  destruct (eerr en2); [injection ER as <- <-; discriminate|].
  destruct r as [[]| | |]; try discriminate.
  destruct (wp_success _ _ _ _ _ _ _ ER) as (k & g & x & _ & _ & Hre & _).
  destruct (Rp _ _ _ Hre) as (g' & I' & R'). exists g', x. auto.
Qed.

(** ** A run on such a network *)

Fixpoint same_bytes (a b : list Z) : bool :=
  match a, b with [], [] => true | x :: a, y :: b => (x =? y) && same_bytes a b | _, _ => false end.
Lemma same_bytes_eq : forall a b, same_bytes a b = true -> a = b.
Proof.
  induction a as [|x a IH]; intros [|y b] H; cbn in H; try discriminate; [reflexivity|].
  apply andb_prop in H. destruct H as [H1 H2]. apply Z.eqb_eq in H1. subst. f_equal. apply IH. exact H2.
Qed.
Definition same_load (a b : payload) : bool :=
  match a, b with PBytes x, PBytes y => same_bytes x y | PErr c x, PErr d y => (c =? d) && (x =? y) | _, _ => false end.
Lemma same_load_eq : forall a b, same_load a b = true -> a = b.
Proof.
  intros [x|c x] [y|d y] H; cbn in H; try discriminate; [f_equal; apply same_bytes_eq; exact H|].
  apply andb_prop in H. destruct H as [H1 H2]. apply Z.eqb_eq in H1, H2. subst. reflexivity.
Qed.
Definition same_dgram (a b : datagram) : bool :=
  same_bytes (g_ip a) (g_ip b) && (g_port a =? g_port b) && same_bytes (g_bytes a) (g_bytes b).
Lemma same_dgram_eq : forall a b, same_dgram a b = true -> a = b.
Proof.
  intros [i p b] [j q c] H. unfold same_dgram in H. cbn in H. apply andb_prop in H. destruct H as [H H3].
  apply andb_prop in H. destruct H as [H1 H2]. apply same_bytes_eq in H1, H3. apply Z.eqb_eq in H2. subst. reflexivity.
Qed.

(** Answers given as pairs. *)
Definition among (ps : list (datagram * payload)) : datagram -> payload -> Prop := fun g p => In (g, p) ps.
Definition among_b (ps : list (datagram * payload)) (g : datagram) (p : payload) : bool :=
  existsb (fun q => same_dgram (fst q) g && same_load (snd q) p) ps.
Definition in_order_b (ps : list (datagram * payload)) (w : world) (a : waction) : bool :=
  match a with
  | WArrive _ src b => forallb (fun e => match e with
      | ModelClient.EDeliver id p => existsb (fun x => match outstanding x with
          | Some id' => (id =? id') && existsb (fun g => among_b ps g p) (sent_by x) | None => false end) (w_ph w)
      | _ => true end) (fst (handleMsg (fun _ => true) src b))
  | WRet _ => forallb (fun x => match x with NHandle _ => false | _ => true end) (w_ph w)
  | _ => true
  end.
Fixpoint orderly_b (me : option address) (ps : list (datagram * payload)) (w : world) (l : list waction) : bool :=
  match l with
  | [] => true
  | a :: t => in_order_b ps w a && match wexec me w a with Some w' => orderly_b me ps w' t | None => true end
  end.
Lemma orderly_b_ok : forall me ps l w, orderly_b me ps w l = true -> orderly me (among ps) w l.
Proof.
  intros me ps l. induction l as [|a l IH]; intros w H; cbn [orderly_b orderly] in *; [exact I|].
  apply andb_prop in H. destruct H as [H1 H2]. split.
  - destruct a as [| |i src b| |j|]; try exact I; cbn [in_order in_order_b] in *.
    + intros id p He. rewrite forallb_forall in H1. specialize (H1 _ He). cbn beta iota in H1.
      apply existsb_exists in H1. destruct H1 as (x & Hx & Q). destruct (outstanding x) as [id'|] eqn:Ox; [|discriminate].
      apply andb_prop in Q. destruct Q as [Q1 Q2]. apply Z.eqb_eq in Q1. subst id'.
      apply existsb_exists in Q2. destruct Q2 as (g & Hg & Q2). apply In_nth_error in Hx. destruct Hx as [j Nj].
      exists j, x, g. split; [exact Nj|]. split; [exact Ox|]. split; [exact Hg|].
      apply existsb_exists in Q2. destruct Q2 as ([g' p'] & Hq & Q2). cbn in Q2. apply andb_prop in Q2. destruct Q2 as [Qa Qb].
      apply same_dgram_eq in Qa. apply same_load_eq in Qb. subst. exact Hq.
    + intros x id _ _ i v a Ni. rewrite forallb_forall in H1. specialize (H1 _ (nth_error_In _ _ Ni)). discriminate.
  - destruct (wexec me w a); [|exact I]. apply IH. exact H2.
Qed.

(** Device 1 answers 21.5, device 2 answers 30.0. *)
Definition wit_o : object_id := mkOid 0 1.
Definition wit_val (n : Z) : list sent := [SVal (VReal (if n =? 1 then 1101791232 else 1106247680))].
Definition wit_pair (n id : Z) : datagram * payload :=
  (read_datagram None (wit_dev n) [10; 0; 0; n] 47808 id wit_o 85 4294967295,
   PBytes (spec_read_ack id wit_o 85 4294967295 (wit_val n))).
Definition wit_answers : list (datagram * payload) := [wit_pair 1 2; wit_pair 2 1].
Definition wit_frame (n id : Z) : list Z :=
  spec_bvlc 10 ([1; 0] ++ spec_read_ack id wit_o 85 4294967295 (wit_val n)).
Definition wit_orderly : list waction :=
  [WSpawn; WSpawn; WSpawn; WCall 0 (wit_req 1); WCall 1 (wit_req 2)] ++
   wit_id 1 None ++ wit_id 0 None ++ wit_wait 0 ++ wit_wait 1 ++
   [WArrive 2 (wit_src 2) (wit_frame 2 1); WTsm (AStep 2); WTsm (AStep 2); WTsm (ADeliver 2 1)] ++ wit_put 1 ++
   [WArrive 2 (wit_src 1) (wit_frame 1 2); WTsm (AStep 2); WTsm (AStep 2); WTsm (ADeliver 2 0)] ++ wit_put 0.

Lemma wit_orderly_ok : orderly None (among wit_answers) w_init wit_orderly.
Proof. apply orderly_b_ok. vm_compute. reflexivity. Qed.

Lemma wit_truly : forall n, n = 1 \/ n = 2 ->
  answers_truly None (among wit_answers) (wit_dev n) [10; 0; 0; n] 47808 wit_o 85 4294967295 (fun vs => vs = wit_val n).
Proof.
  intros n Hn id pl H. left. exists (wit_val n). split; [reflexivity|]. split; [destruct Hn as [-> | ->]; repeat constructor; discriminate|].
  unfold among, wit_answers, wit_pair in H.
  destruct Hn as [-> | ->]; cbn [In] in H; destruct H as [H|[H|[]]]; injection H; intros; subst; try discriminate; reflexivity.
Qed.
