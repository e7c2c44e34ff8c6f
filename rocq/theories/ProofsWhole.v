(** Proofs about clients used for requests and discovery: C125. *)
Require Import List ZArith Bool Lia.
From Verif Require Import ModelClient ModelSystem ModelScan ModelWhole SpecSystem SpecRun SpecScan SpecWhole.
From Verif Require ModelTsm ProofsTsm.
From Verif Require Import ProofsSystem ProofsSystemProps ProofsSystemLive ProofsScan.
Import ListNotations.
Open Scope Z_scope.

Lemma zrun_app : forall bcast me a b z, zrun bcast me z (a ++ b) = match zrun bcast me z a with Some v => zrun bcast me v b | None => None end.
Proof. induction a as [|x a IH]; intros b z; [reflexivity|]. cbn [app zrun]. destruct (zexec bcast me z x); [apply IH|reflexivity]. Qed.
Lemma seen_w_more : forall l lw a, seen_by_requests l lw -> seen_by_requests (l ++ [a]) lw.
Proof. intros l lw a H x Hx. specialize (H x Hx). destruct x; apply in_or_app; auto. Qed.
Lemma seen_w_app : forall l lw a x, seen_by_requests l lw ->
  match x with WSpawn => a = ZSpawn | WCall i rq => a = ZRequest i rq | WArrive i src b => In (ZArrive i src b) l | _ => a = ZW x end ->
  seen_by_requests (l ++ [a]) (lw ++ [x]).
Proof.
  intros l lw a x H K y Hy. apply in_app_or in Hy. destruct Hy as [Hy|[<-|[]]]; [exact (seen_w_more _ _ _ H y Hy)|].
  destruct x; subst; apply in_or_app; cbn; auto.
Qed.
Lemma seen_y_more : forall l ly a, seen_by_scans l ly -> match a with ZArrive _ _ _ => False | _ => True end -> seen_by_scans (l ++ [a]) ly.
Proof.
  intros l ly a [H1 H2] K. split.
  - intros i src b Hx. apply in_app_or in Hx. destruct Hx as [Hx|[Hx|[]]]; [exact (H1 _ _ _ Hx)|subst a; contradiction].
  - intros x Hx. specialize (H2 x Hx). destruct x; apply in_or_app; auto.
Qed.
Lemma seen_y_app : forall l ly a x, seen_by_scans l ly ->
  match x with YSpawn => a = ZSpawn | YCall i q => a = ZScan i q | YArrive i src b k => k = false /\ a = ZArrive i src b | _ => a = ZY x end ->
  seen_by_scans (l ++ [a]) (ly ++ [x]).
Proof.
  intros l ly a x [H1 H2] K. split.
  - intros i src b Hx. apply in_app_or in Hx. destruct Hx as [Hx|[Hx|[]]]; [apply in_or_app; left; exact (H1 _ _ _ Hx)|].
    destruct x; try (subst a; discriminate Hx). destruct K as [-> ->]. inversion Hx. subst. apply in_or_app. right. left. reflexivity.
  - intros y Hy. apply in_app_or in Hy. destruct Hy as [Hy|[<-|[]]].
    + specialize (H2 y Hy). destruct y; apply in_or_app; auto.
    + destruct x; try subst a; try (apply in_or_app; right; left; reflexivity). destruct K as [_ ->]. apply in_or_app. right. left. reflexivity.
Qed.
Lemma wrun_snoc : forall me l a w w1 w2, wrun me w l = Some w1 -> wexec me w1 a = Some w2 -> wrun me w (l ++ [a]) = Some w2.
Proof. intros me l a w w1 w2 H E. rewrite (wrun_app _ _ _ _ _ H). cbn [wrun]. rewrite E. reflexivity. Qed.
Lemma yrun_snoc : forall bcast me l a w w1 w2, yrun bcast me w l = Some w1 -> yexec bcast me w1 a = Some w2 -> yrun bcast me w (l ++ [a]) = Some w2.
Proof. intros bcast me l a w w1 w2 H E. rewrite yrun_app, H. cbn [yrun]. rewrite E. reflexivity. Qed.

Definition projected (bcast : address) (me : option address) (l : list zaction) (z : whole) : Prop :=
  (exists lw, wrun me w_init lw = Some (z_w z) /\ seen_by_requests l lw)
  /\ (exists ly, yrun bcast me y_init ly = Some (z_y z) /\ seen_by_scans l ly)
  /\ (forall i src b, nth_error (z_rest z) i = Some (Some (src, b)) -> In (ZArrive i src b) l).
Lemma upd_inv' : forall (A : Type) (l : list A) i x j y, nth_error (ModelTsm.upd l i x) j = Some y -> j = i /\ y = x \/ nth_error l j = Some y.
Proof.
  induction l as [|a l IH]; intros i x j y H; [destruct i, j; discriminate H|].
  destruct i as [|i], j as [|j]; cbn in H.
  - injection H as ->. auto.
  - auto.
  - auto.
  - destruct (IH i x j y H) as [[-> ->]|K]; auto.
Qed.
Lemma projects : forall bcast me l z, zrun bcast me z_init l = Some z -> projected bcast me l z.
Proof.
  intros bcast me l. induction l as [|a l IH] using rev_ind; intros z H.
  { injection H as <-. split; [exists []; split; [reflexivity|intros ? []]|]. split; [exists []; split; [reflexivity|split; [intros ? ? ? []|intros ? []]]|].
    intros i src b H. cbn in H. destruct i; discriminate H. }
  rewrite zrun_app in H. destruct (zrun bcast me z_init l) as [z0|] eqn:R0; [|discriminate]. cbn [zrun] in H.
  destruct (zexec bcast me z0 a) as [z1|] eqn:E; [|discriminate]. injection H as <-.
  destruct (IH z0 eq_refl) as ((lw & RW & SW) & (ly & RY & SY) & HR).
  unfold zexec in E. destruct (z_dead z0); [discriminate|].
  assert (HRL : forall i src b, nth_error (z_rest z0) i = Some (Some (src, b)) -> In (ZArrive i src b) (l ++ [a])) by (intros; apply in_or_app; left; eauto).
  unfold z_do_w, z_do_y in E. destruct a as [|i rq|i q|i src b|i|x|x].
  - destruct (wexec me (z_w z0) WSpawn) as [w|] eqn:EW; [|discriminate]. destruct (yexec bcast me (z_y z0) YSpawn) as [y|] eqn:EY; [|discriminate].
    injection E as <-. unfold projected. cbn [z_w z_y z_rest].
    split; [exists (lw ++ [WSpawn]); split; [exact (wrun_snoc _ _ _ _ _ _ RW EW)|apply seen_w_app; auto]|].
    split; [exists (ly ++ [YSpawn]); split; [exact (yrun_snoc _ _ _ _ _ _ _ RY EY)|apply seen_y_app; auto]|].
    intros i src b H. destruct (Nat.lt_ge_cases i (length (z_rest z0))) as [L|L].
    + rewrite nth_error_app1 in H by exact L. exact (HRL _ _ _ H).
    + rewrite nth_error_app2 in H by exact L. destruct (i - length (z_rest z0))%nat as [|n]; [discriminate H|destruct n; discriminate H].
  - destruct (z_free z0 i); [|discriminate]. destruct (wexec me (z_w z0) (WCall i rq)) as [w|] eqn:EW; [|discriminate]. injection E as <-.
    split; [exists (lw ++ [WCall i rq]); split; [exact (wrun_snoc _ _ _ _ _ _ RW EW)|apply seen_w_app; auto]|].
    split; [exists ly; split; [exact RY|apply seen_y_more; auto]|exact HRL].
  - destruct (z_free z0 i); [|discriminate]. destruct (yexec bcast me (z_y z0) (YCall i q)) as [y|] eqn:EY; [|discriminate]. injection E as <-.
    split; [exists lw; split; [exact RW|apply seen_w_more; auto]|].
    split; [exists (ly ++ [YCall i q]); split; [exact (yrun_snoc _ _ _ _ _ _ _ RY EY)|apply seen_y_app; auto]|exact HRL].
  - destruct (z_free z0 i); [|discriminate]. destruct (yexec bcast me (z_y z0) (YArrive i src b false)) as [y|] eqn:EY; [|discriminate]. injection E as <-.
    split; [exists lw; split; [exact RW|apply seen_w_more; auto]|].
    split; [exists (ly ++ [YArrive i src b false]); split; [exact (yrun_snoc _ _ _ _ _ _ _ RY EY)|apply seen_y_app; auto]|].
    cbn [z_rest]. intros j src' b' H. destruct (upd_inv' _ _ _ _ _ _ H) as [[-> K]|K]; [|exact (HRL _ _ _ K)].
    injection K as -> ->. apply in_or_app. right. left. reflexivity.
  - destruct (nth_error (y_ph (z_y z0)) i) as [[]|]; try discriminate E. destruct (nth_error (z_rest z0) i) as [[[src b]|]|] eqn:ER; try discriminate E.
    destruct (wexec me (z_w z0) (WArrive i src b)) as [w|] eqn:EW; [|discriminate]. injection E as <-.
    split; [exists (lw ++ [WArrive i src b]); split; [exact (wrun_snoc _ _ _ _ _ _ RW EW)|apply seen_w_app; auto]|].
    split; [exists ly; split; [exact RY|apply seen_y_more; auto]|].
    cbn [z_rest]. intros j src' b' H. destruct (upd_inv' _ _ _ _ _ _ H) as [[-> K]|K]; [discriminate K|exact (HRL _ _ _ K)].
  - destruct (w_step x) eqn:Hs; [|discriminate]. destruct (wexec me (z_w z0) x) as [w|] eqn:EW; [|discriminate]. injection E as <-.
    split; [exists (lw ++ [x]); split; [exact (wrun_snoc _ _ _ _ _ _ RW EW)|apply seen_w_app; [exact SW|]; destruct x; try discriminate Hs; reflexivity]|].
    split; [exists ly; split; [exact RY|apply seen_y_more; auto]|exact HRL].
  - destruct (y_step x) eqn:Hs; [|discriminate]. destruct (yexec bcast me (z_y z0) x) as [y|] eqn:EY; [|discriminate]. injection E as <-.
    split; [exists lw; split; [exact RW|apply seen_w_more; auto]|].
    split; [exists (ly ++ [x]); split; [exact (yrun_snoc _ _ _ _ _ _ _ RY EY)|apply seen_y_app; [exact SY|]; destruct x; try discriminate Hs; reflexivity]|exact HRL].
Qed.
Lemma whole_requests : forall bcast me l z, zrun bcast me z_init l = Some z ->
  exists lw, wrun me w_init lw = Some (z_w z) /\ seen_by_requests l lw.
Proof. intros bcast me l z H. apply (projects _ _ _ _ H). Qed.
Lemma whole_scans : forall bcast me l z, zrun bcast me z_init l = Some z ->
  exists ly, yrun bcast me y_init ly = Some (z_y z) /\ seen_by_scans l ly.
Proof. intros bcast me l z H. apply (projects _ _ _ _ H). Qed.

(** ** results *)
Lemma whole_request_result : forall bcast me l z f, zrun bcast me z_init l = Some z -> In f (w_done (z_w z)) ->
  In (ZRequest (fi_thread f) (fi_req f)) l /\
  exists e, ev_id e = fi_id f /\ alone e me (fi_req f) = (fi_sent f, fi_result f) /\
    (forall k g p, at_reply (ev_att e k g) = Some p -> exists id, answered_in l id p) /\
    (forallb (fun a => negb (pool_reuse a)) l = true -> forall k g p, at_reply (ev_att e k g) = Some p -> exists id, ev_id e = Some id /\ answered_in l id p).
Proof.
  intros bcast me l z f H Hf. destruct (whole_requests _ _ _ _ H) as (lw & RW & SW). destruct (finished_alone _ _ _ _ RW Hf) as (HC & e & E1 & E2 & E3 & E4).
  split; [exact (SW _ HC)|]. exists e. split; [exact E1|]. split; [exact E2|].
  assert (HA : forall id p, answered lw id p -> answered_in l id p) by (intros id p (i & src & b & K & D); exists i, src, b; split; [exact (SW _ K)|exact D]).
  split.
  - intros k g p Hp. destruct (E3 k g p Hp) as (id & A). eauto.
  - intros HF k g p Hp. assert (HF' : forallb (fun a => negb (recycles a)) lw = true).
    { apply forallb_forall. intros a Ha. specialize (SW a Ha). destruct a; try reflexivity. rewrite forallb_forall in HF. specialize (HF _ SW). exact HF. }
    destruct (E4 HF' k g p Hp) as (id & I1 & A). eauto.
Qed.
Lemma effects_known : forall k1 k2 src b, fst (handleMsg k1 src b) = fst (handleMsg k2 src b).
Proof.
  intros k1 k2 src b. unfold handleMsg. destruct (dec_BVLC (newDecoder b)) as [h d]. destruct (derr d); [reflexivity|]. destruct (_ || _); [|reflexivity].
  destruct (dec_NPDU d) as [[[n nets] [e|]] d2]; [reflexivity|]. unfold handle_apdu. destruct (dec_APDU d2) as [[a [e|]] d3]; [reflexivity|].
  destruct (p_type a =? pduUnconfirmed).
  { destruct (p_uservice a =? usvcIAm); [|reflexivity]. destruct (dec_IAm _) as [[i [e|]] d4| |]; reflexivity. }
  destruct (_ || _ || _); [|destruct (p_type a =? pduError); reflexivity].
  cbn [orb]. destruct (negb (k1 _)), (negb (k2 _)); reflexivity.
Qed.
Lemma published_known : forall k1 k2 src b, published k1 [(src, b)] = published k2 [(src, b)].
Proof. intros. unfold published. cbn [flat_map fst snd]. rewrite (effects_known k1 k2). reflexivity. Qed.
Lemma deliver_calm : forall src b id p, In (EDeliver id p) (fst (handleMsg (fun _ => true) src b)) -> snd (handleMsg (fun _ => true) src b) = false -> snd (handleMsg (fun _ => false) src b) = false.
Proof.
  intros src b id p. unfold handleMsg. destruct (dec_BVLC (newDecoder b)) as [h d]. destruct (derr d); [reflexivity|]. destruct (_ || _); [|reflexivity].
  destruct (dec_NPDU d) as [[[n nets] [e|]] d2]; [reflexivity|]. unfold handle_apdu. destruct (dec_APDU d2) as [[a [e|]] d3]; [reflexivity|].
  destruct (p_type a =? pduUnconfirmed).
  { destruct (p_uservice a =? usvcIAm); [|auto]. destruct (dec_IAm _) as [[i [e|]] d4| |]; auto. }
  destruct (_ || _ || _); [|destruct (p_type a =? pduError); auto]. cbn [orb negb snd]. auto.
Qed.
Lemma whole_found : forall bcast me l z f wh ds, zrun bcast me z_init l = Some z -> In f (y_done (z_y z)) ->
  sd_req f = QWho wh -> sd_result f = XDevices ds ->
  NoDup (map f_deviceid ds) /\
  forall x, In x ds -> exists i src b th, In (ZArrive th src b) l /\
    In (oid_inst (i_id i), PubIAm i) (published (fun _ => true) [(src, b)]) /\
    SpecClient.requested_low wh <= oid_inst (i_id i) <= SpecClient.requested_high wh /\ x = found_of i.
Proof.
  intros bcast me l z f wh ds H Hf Hq Hr. destruct (whole_scans _ _ _ _ H) as (ly & RY & _ & SY).
  destruct (scan_found _ _ _ _ _ _ _ RY Hf Hq Hr) as [ND HX]. split; [exact ND|]. intros x Hx.
  destruct (HX x Hx) as (i & src & b & known & th & A1 & A2 & A3). exists i, src, b, th. split; [exact (SY _ A1)|]. split; [|exact A3].
  rewrite (published_known _ (fun _ => known)). exact A2.
Qed.
Lemma whole_scan_result : forall bcast me l z, zrun bcast me z_init l = Some z -> NoDup (map sd_sub (y_done (z_y z))) /\
  forall f, In f (y_done (z_y z)) -> exists heard missed,
    announced_during (z_y z) f = heard ++ missed /\
    (length (filter (in_asked (sd_req f)) missed) <= 1)%nat /\
    (sd_result f = XErr /\ sd_failed f = true \/ scan_gives (sd_req f) heard (sd_result f)).
Proof.
  intros bcast me l z H. destruct (whole_scans _ _ _ _ H) as (ly & RY & _). destruct (scan_exact _ _ _ _ RY) as [ND HF]. split; [exact ND|].
  intros f Hf. destruct (HF f Hf) as (heard & missed & _ & _ & K). eauto.
Qed.

(** ** nobody waits for the other *)
Lemma live : forall z, z_dead z = false -> y_dead (z_y z) = false /\ alive (z_w z) = true.
Proof.
  intros z H. unfold z_dead in H. apply orb_false_elim in H. destruct H as [H H3]. apply orb_false_elim in H. destruct H as [H1 H2]. unfold alive. rewrite H2, H3. auto.
Qed.
Lemma wexec_live : forall me w a w', wexec me w a = Some w' -> w_dead w = false /\ (match a with WTsm _ | WTx _ _ | WRet _ => ModelTsm.sy_crash (w_tsm w) = false | _ => True end).
Proof.
  intros me w a w' H. unfold wexec in H. destruct (w_dead w); [discriminate|]. split; [reflexivity|].
  destruct (ModelTsm.sy_crash (w_tsm w)) eqn:C; [|destruct a; auto].
  destruct a as [|i rq|i src b|i ok|i|a]; auto; exfalso.
  - destruct (nth_error (w_ph w) i) as [[]|]; try discriminate. destruct p; try discriminate. destruct ok; [|discriminate].
    unfold ModelTsm.exec in H. rewrite C in H. discriminate.
  - destruct (nth_error (w_ph w) i) as [[]|]; try discriminate. destruct p as [[]|]; try discriminate; unfold ModelTsm.exec in H; rewrite C in H; discriminate.
  - destruct (inside a); [|discriminate]. unfold ModelTsm.exec in H. rewrite C in H. discriminate.
Qed.
Lemma lift_w : forall bcast me l w y r w', forallb w_step l = true -> y_dead y = false -> wrun me w l = Some w' ->
  zrun bcast me (mkZ w y r) (map ZW l) = Some (mkZ w' y r).
Proof.
  intros bcast me l. induction l as [|a l IH]; intros w y r w' HS HY H; [injection H as <-; reflexivity|].
  cbn [forallb] in HS. apply andb_prop in HS. destruct HS as [S1 S2]. cbn [wrun] in H. destruct (wexec me w a) as [w1|] eqn:E; [|discriminate].
  cbn [map zrun]. unfold zexec, z_dead. cbn [z_y z_w]. destruct (wexec_live _ _ _ _ E) as [L1 L2]. rewrite HY, L1.
  assert (L3 : ModelTsm.sy_crash (w_tsm w) = false) by (destruct a; try discriminate S1; exact L2). rewrite L3. cbn [orb]. rewrite S1. unfold z_do_w. cbn [z_w z_y z_rest]. rewrite E. apply IH; assumption.
Qed.
Lemma yexec_live : forall bcast me w a w', yexec bcast me w a = Some w' -> y_dead w = false.
Proof. intros bcast me w a w' H. unfold yexec in H. destruct (y_dead w); [discriminate|reflexivity]. Qed.
Lemma lift_y : forall bcast me l w y r y', forallb on_the_way l = true -> w_dead w = false -> ModelTsm.sy_crash (w_tsm w) = false -> yrun bcast me y l = Some y' ->
  zrun bcast me (mkZ w y r) (map ZY l) = Some (mkZ w y' r).
Proof.
  intros bcast me l. induction l as [|a l IH]; intros w y r y' HS HW HC H; [injection H as <-; reflexivity|].
  cbn [forallb] in HS. apply andb_prop in HS. destruct HS as [S1 S2]. cbn [yrun] in H. destruct (yexec bcast me y a) as [y1|] eqn:E; [|discriminate].
  cbn [map zrun]. unfold zexec, z_dead. cbn [z_y z_w]. rewrite (yexec_live _ _ _ _ _ E), HW, HC. cbn [orb].
  replace (y_step a) with true by (destruct a; try discriminate S1; reflexivity). unfold z_do_y. cbn [z_w z_y z_rest]. rewrite E. apply IH; assumption.
Qed.
Lemma going_steps : forall l, forallb going_on l = true -> forallb w_step l = true.
Proof. intros l H. exact H. Qed.
Lemma all_requests : forall l, forallb request_step (map ZW l) = true.
Proof. induction l; auto. Qed.
Lemma all_scans : forall l, forallb scan_step (map ZY l) = true.
Proof. induction l; auto. Qed.

Lemma whole_request_ends : forall bcast me l z i x rq, zrun bcast me z_init l = Some z -> z_dead z = false ->
  nth_error (w_ph (z_w z)) i = Some x -> req_of x = Some rq -> SpecSystem.stuck x = false ->
  (forall id, snd (alone (mkEnv (Some id) (fun _ _ => mkAtt true None)) me rq) <> CPanic) ->
  exists l' z' f d, zrun bcast me z l' = Some z' /\ forallb request_step l' = true /\
    w_done (z_w z') = f :: d ++ w_done (z_w z) /\ fi_thread f = i /\ fi_req f = rq /\ z_y z' = z_y z.
Proof.
  intros bcast me l z i x rq H HD HX HQ HS HP. destruct (live z HD) as [L1 L2]. destruct (whole_requests _ _ _ _ H) as (lw & RW & _).
  destruct (call_ends me lw (z_w z) i x rq RW L2 HX HQ HS HP) as (l' & w' & f & d & R & G & D & T & Q).
  exists (map ZW l'), (mkZ w' (z_y z) (z_rest z)), f, d. destruct z as [w y r]. cbn [z_w z_y z_rest] in *.
  split; [exact (lift_w bcast me l' w y r w' (going_steps l' G) L1 R)|]. split; [apply all_requests|]. auto.
Qed.
Lemma whole_scan_ends : forall bcast me l z i, zrun bcast me z_init l = Some z -> z_dead z = false ->
  ~ SpecScan.stuck (z_y z) -> holder_safe (z_y z) -> scanning (z_y z) i ->
  exists l' z' f, zrun bcast me z l' = Some z' /\ forallb scan_step l' = true /\
    y_done (z_y z') = f :: y_done (z_y z) /\ sd_thread f = i /\ z_w z' = z_w z.
Proof.
  intros bcast me l z i H HD HS HH HI. destruct (live z HD) as [L1 L2]. unfold alive in L2. apply andb_prop in L2. destruct L2 as [L2 L3]. apply negb_true_iff in L2, L3.
  destruct (whole_scans _ _ _ _ H) as (ly & RY & _).
  destruct (call_finishes bcast me ly (z_y z) i RY L1 HS HH HI) as (l' & y' & f & R & D & T & G).
  exists (map ZY l'), (mkZ (z_w z) y' (z_rest z)), f. destruct z as [w y r]. cbn [z_w z_y z_rest] in *.
  split; [exact (lift_y bcast me l' w y r y' G L2 L3 R)|]. split; [apply all_scans|]. auto.
Qed.
Lemma upd_none : forall (A : Type) (l : list A) i x, nth_error l i = Some x -> ModelTsm.upd l i x = l.
Proof. induction l as [|a l IH]; intros i x H; [destruct i; discriminate H|]. destruct i as [|i]; cbn in *; [injection H as ->; reflexivity|]. rewrite IH by exact H. reflexivity. Qed.
Lemma upd_twice : forall (A : Type) (l : list A) i x y, ModelTsm.upd (ModelTsm.upd l i x) i y = ModelTsm.upd l i y.
Proof. induction l as [|a l IH]; intros i x y; [destruct i; reflexivity|]. destruct i as [|i]; cbn; [reflexivity|]. rewrite IH. reflexivity. Qed.
Lemma whole_answer_ends : forall bcast me l z i j rq id g h tr k c src b p r,
  zrun bcast me z_init l = Some z -> z_dead z = false -> ModelTsm.sy_lock (w_tsm (z_w z)) = None ->
  z_free z i = true ->
  nth_error (w_ph (z_w z)) j = Some (NRecv rq id g h tr k) ->
  nth_error (ModelTsm.sy_thr (w_tsm (z_w z))) j = Some (ModelTsm.RecvWait id c g) ->
  In (EDeliver id p) (fst (handleMsg (fun _ => true) src b)) ->
  snd (handleMsg (fun _ => true) src b) = false -> published (fun _ => true) [(src, b)] = [] ->
  k (inr p) = PRet r -> match r with COk _ | CErr _ => true | _ => false end = true ->
  exists z', zrun bcast me z (ZArrive i src b :: ZDeliver i :: map ZW ([WTsm (ModelTsm.AStep i); WTsm (ModelTsm.AStep i); WTsm (ModelTsm.ADeliver i j); WRet j] ++
                        repeat (WTsm (ModelTsm.AStep j)) 6)) = Some z' /\
    z_dead z' = false /\ z_y z' = z_y z /\
    w_done (z_w z') = mkFin j rq (Some id) (h ++ [inr (length (w_in (z_w z)))]) tr r :: w_done (z_w z).
Proof.
  intros bcast me l z i j rq id g h tr k c src b p r H HD HL HF HJ HT HE HP HPub HK HR. destruct (live z HD) as [L1 L2]. destruct (whole_requests _ _ _ _ H) as (lw & RW & _).
  unfold z_free in HF. destruct (nth_error (w_ph (z_w z)) i) as [[]|] eqn:FW; try discriminate HF. destruct (nth_error (y_ph (z_y z)) i) as [[]|] eqn:FY; try discriminate HF.
  destruct (nth_error (z_rest z) i) as [[|]|] eqn:FR; try discriminate HF.
  destruct (answer_ends_call me lw (z_w z) i j rq id g h tr k c src b p r RW L2 HL FW HJ HT HE HP HK HR) as (w' & R & A & D).
  cbn [app] in R. cbn [wrun] in R. destruct (wexec me (z_w z) (WArrive i src b)) as [w1|] eqn:EW; [|discriminate R].
  match type of R with ?X = _ => change X with (wrun me w1 ([WTsm (ModelTsm.AStep i); WTsm (ModelTsm.AStep i); WTsm (ModelTsm.ADeliver i j); WRet j] ++ repeat (WTsm (ModelTsm.AStep j)) 6)) in R end.
  exists (mkZ w' (z_y z) (z_rest z)).
  assert (EY : yexec bcast me (z_y z) (YArrive i src b false) = Some (z_y z)).
  { unfold yexec. rewrite L1, FY. pose proof (deliver_calm _ _ _ _ HE HP) as HC. pose proof (effect_pub_same (fun _ => false) src b) as HEff.
    rewrite (published_known _ (fun _ => true)), HPub in HEff. destruct (handleMsg (fun _ => false) src b) as [eff pan]. cbn [fst snd] in *. rewrite HEff, HC. unfold y_publish.
    f_equal. unfold y_setph. rewrite (upd_none _ _ _ _ FY). destruct (z_y z); reflexivity. }
  split; [|split; [|split; [reflexivity|exact D]]].
  - destruct z as [w y r0]. cbn [z_w z_y z_rest] in *. cbn [zrun]. unfold zexec at 1. rewrite HD. unfold z_free. cbn [z_w z_y z_rest]. rewrite FW, FY, FR, EY.
    unfold zexec at 1. unfold z_dead in *. cbn [z_w z_y z_rest] in *. rewrite HD, FY. erewrite ProofsTsm.upd_same by exact FR. rewrite EW, upd_twice, (upd_none _ _ _ _ FR).
    apply lift_w; [reflexivity|exact L1|exact R].
  - unfold z_dead. cbn [z_w z_y]. rewrite L1. unfold alive in A. apply andb_prop in A. destruct A as [A1 A2]. apply negb_true_iff in A1, A2. rewrite A1, A2. reflexivity.
Qed.
Lemma y_follows : forall bcast me l z z', zrun bcast me z l = Some z' -> exists ly, yrun bcast me (z_y z) ly = Some (z_y z').
Proof.
  intros bcast me l. induction l as [|a l IH]; intros z z' H; [injection H as <-; exists []; reflexivity|].
  cbn [zrun] in H. destruct (zexec bcast me z a) as [z1|] eqn:E; [|discriminate]. destruct (IH _ _ H) as (ly & R).
  assert (K : z_y z1 = z_y z \/ exists x, yexec bcast me (z_y z) x = Some (z_y z1)).
  { unfold zexec, z_do_w, z_do_y in E. destruct (z_dead z); [discriminate|]. destruct a as [|i rq|i q|i src b|i|x|x].
    - destruct (wexec me (z_w z) WSpawn); [|discriminate]. destruct (yexec bcast me (z_y z) YSpawn) eqn:EY; [|discriminate]. injection E as <-. eauto.
    - destruct (z_free z i); [|discriminate]. destruct (wexec _ _ _); [|discriminate]. injection E as <-. auto.
    - destruct (z_free z i); [|discriminate]. destruct (yexec _ _ _ _) eqn:EY; [|discriminate]. injection E as <-. eauto.
    - destruct (z_free z i); [|discriminate]. destruct (yexec _ _ _ _) eqn:EY; [|discriminate]. injection E as <-. eauto.
    - destruct (nth_error (y_ph (z_y z)) i) as [[]|]; try discriminate. destruct (nth_error (z_rest z) i) as [[[src b]|]|]; try discriminate.
      destruct (wexec _ _ _); [|discriminate]. injection E as <-. auto.
    - destruct (w_step x); [|discriminate]. destruct (wexec _ _ _); [|discriminate]. injection E as <-. auto.
    - destruct (y_step x); [|discriminate]. destruct (yexec _ _ _ _) eqn:EY; [|discriminate]. injection E as <-. eauto. }
  destruct K as [K|(x & K)]; [exists ly; rewrite <- K; exact R|]. exists (x :: ly). cbn [yrun]. rewrite K. exact R.
Qed.
Lemma whole_hang : forall bcast me l l' z z' i, zrun bcast me z_init l = Some z -> SpecScan.stuck (z_y z) -> scanning (z_y z) i ->
  zrun bcast me z l' = Some z' -> scanning (z_y z') i.
Proof.
  intros bcast me l l' z z' i H HS HI R. destruct (whole_scans _ _ _ _ H) as (ly & RY & _). destruct (y_follows _ _ _ _ _ R) as (ly' & R').
  destruct (stuck_run _ _ _ _ _ _ RY HS R') as [_ K]. exact (K i HI).
Qed.
