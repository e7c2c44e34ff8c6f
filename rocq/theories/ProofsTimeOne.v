(** * When a discovery call returns, exactly, and announcements one at a time *)
Require Import List ZArith Bool Lia.
From Verif Require Import ModelClient ModelSystem ModelScan ModelWhole ModelTime SpecSystem SpecUtsm SpecScan SpecWhole SpecFair SpecTime SpecTimeScan.
From Verif Require ModelTsm SpecTsm ProofsTsm ProofsTsmProps ModelUtsm ProofsUtsm ProofsUtsmProps ProofsFate.
From Verif Require Import ProofsRun ProofsSystem ProofsScan ProofsWhole ProofsFair ProofsFairWhole ProofsFairScan ProofsTime ProofsTimeScan ProofsTimeHear ProofsTimeCheck.
Import ListNotations.
Import ModelTsm ModelUtsm ProofsTsm ProofsUtsm ProofsUtsmProps ProofsFate.
Open Scope Z_scope.

(** ** The exact condition *)
Lemma scan_exact : forall bcast me l1 t0 i q t1 l2 t2, trun bcast me t_init l1 = Some t0 -> texec bcast me t0 (TDo (ZScan i q)) = Some t1 ->
  trun bcast me t1 l2 = Some t2 -> prompt bcast me t1 l2 -> z_dead (t_z t2) = false -> 10000 < t_now t2 - t_now t0 ->
  ((exists f d, scans_of i t2 = d ++ f :: scans_of i t0 /\ sd_req f = q) <-> never_stuck bcast me i (scans_of i t0) t1 l2).
Proof.
  intros bcast me l1 t0 i q t1 l2 t2 R1 E R2 PR LV LI. split; [|intros NS; exact (scan_in_time _ _ _ _ _ _ _ _ _ R1 E R2 PR LV NS LI)].
  intros (f & d & RO & _) la lb ta -> RA EQ SC S. rewrite trun_cat, RA in R2.
  pose proof (reach_run _ _ _ _ _ (reach_step _ _ _ _ _ (reach_run _ _ _ _ _ (reach_init bcast me) R1) E) RA) as REa.
  pose proof (stuck_for_good _ _ _ _ _ _ REa R2 S SC) as K. rewrite RO, EQ in K. exact (cons_more _ _ _ K).
Qed.

(** ** Announcements one at a time *)
Lemma cinv_zexec : forall bcast me z a z', zreach bcast me z -> cinv (z_y z) ->
  (forall j src b, a = ZArrive j src b -> SpecRun.published (fun _ => true) [(src, b)] = [] \/ (exists p, SpecRun.published (fun _ => true) [(src, b)] = [p]) /\ quiet (z_y z)) ->
  zexec bcast me z a = Some z' -> cinv (z_y z').
Proof.
  intros bcast me z a z' RE C GT E. destruct (zreach_y _ _ _ RE) as (seen & I). pose proof (zexec_live _ _ _ _ _ E) as LV. unfold zexec in E. rewrite LV in E. unfold z_do_w, z_do_y in E.
  destruct a as [|j rq'|j q|j src b|j|a|a].
  - destruct (wexec _ _ _) as [w|]; [|discriminate]. destruct (yexec bcast me (z_y z) YSpawn) as [y|] eqn:EY; [|discriminate]. injection E as <-. eapply calm_exec; [exact I|exact C| |exact EY]. discriminate.
  - destruct (z_free _ _); [|discriminate]. destruct (wexec _ _ _) as [w|]; [|discriminate]. injection E as <-. exact C.
  - destruct (z_free _ _); [|discriminate]. destruct (yexec bcast me (z_y z) (YCall j q)) as [y|] eqn:EY; [|discriminate]. injection E as <-. eapply calm_exec; [exact I|exact C| |exact EY]. discriminate.
  - destruct (z_free _ _); [|discriminate]. destruct (yexec bcast me (z_y z) (YArrive j src b false)) as [y|] eqn:EY; [|discriminate]. injection E as <-. eapply calm_exec; [exact I|exact C| |exact EY].
    intros i src' b' known K. injection K as <- <- <- <-. rewrite (published_known _ (fun _ => true)). exact (GT j src b eq_refl).
  - destruct (nth_error (y_ph (z_y z)) j) as [[]|]; try discriminate E. destruct (nth_error (z_rest z) j) as [[[src b]|]|]; try discriminate E.
    destruct (wexec _ _ _) as [w|]; [|discriminate]. injection E as <-. exact C.
  - destruct (w_step a); [|discriminate]. destruct (wexec _ _ _) as [w|]; [|discriminate]. injection E as <-. exact C.
  - destruct (y_step a) eqn:ST; [|discriminate]. destruct (yexec bcast me (z_y z) a) as [y|] eqn:EY; [|discriminate]. injection E as <-. eapply calm_exec; [exact I|exact C| |exact EY].
    intros i src b known ->. discriminate ST.
Qed.
Lemma one_cinv : forall bcast me l t t' r, zreach bcast me (t_z t) -> cinv (Yt t) -> trun bcast me t l = Some t' -> one_by_one bcast me t (l ++ r) -> cinv (Yt t') /\ one_by_one bcast me t' r.
Proof.
  intros bcast me l. induction l as [|a l IH]; intros t t' r RE C H O; cbn [trun] in H; [injection H as <-; auto|].
  destruct (texec bcast me t a) as [t1|] eqn:E; [|discriminate]. cbn [app one_by_one] in O. rewrite E in O. destruct O as [OA O].
  apply (IH t1 t' r (reach_step _ _ _ _ _ RE E)); [|exact H|exact O].
  destruct a as [a|d].
  - destruct (texec_do _ _ _ _ _ E) as (z & _ & Z & ->). cbn [set_z t_z]. apply (cinv_zexec bcast me (t_z t) a); [exact RE|exact C| |exact Z]. intros j src b ->. exact OA.
  - cbn [texec] in E. destruct (0 <? d); [|discriminate]. injection E as <-. exact C.
Qed.
Lemma cinv_start : cinv (Yt t_init).
Proof. constructor; [intros [|i] ps b N; discriminate|intros [|i] j (? & ? & N); discriminate|intros [|i] (? & ? & N); discriminate]. Qed.
Lemma one_not_stuck : forall bcast me l1 t0 a t1 l2 i old, trun bcast me t_init l1 = Some t0 -> texec bcast me t0 a = Some t1 -> one_by_one bcast me t_init (l1 ++ a :: l2) ->
  never_stuck bcast me i old t1 l2.
Proof.
  intros bcast me l1 t0 a t1 l2 i old R1 E O la lb ta -> RA _ _.
  assert (R : trun bcast me t_init (l1 ++ a :: la) = Some ta) by (rewrite trun_cat, R1; cbn [trun]; rewrite E; exact RA).
  pose proof (reach_run _ _ _ _ _ (reach_init bcast me) R) as RE. destruct (zreach_y _ _ _ RE) as (seen & I).
  apply (cinv_free seen); [exact I|]. apply (one_cinv bcast me (l1 ++ a :: la) t_init ta lb (reach_init bcast me) cinv_start R). rewrite <- app_assoc. exact O.
Qed.
Lemma scan_one_by_one : forall bcast me l1 t0 i q t1 l2 t2, trun bcast me t_init l1 = Some t0 -> texec bcast me t0 (TDo (ZScan i q)) = Some t1 ->
  trun bcast me t1 l2 = Some t2 -> prompt bcast me t1 l2 -> z_dead (t_z t2) = false -> one_by_one bcast me t_init (l1 ++ TDo (ZScan i q) :: l2) ->
  10000 < t_now t2 - t_now t0 -> exists f d, scans_of i t2 = d ++ f :: scans_of i t0 /\ sd_req f = q.
Proof.
  intros bcast me l1 t0 i q t1 l2 t2 R1 E R2 PR LV O LI. exact (scan_in_time _ _ _ _ _ _ _ _ _ R1 E R2 PR LV (one_not_stuck _ _ _ _ _ _ _ _ _ R1 E O) LI).
Qed.

(** ** Time passing after a run in which everybody waits *)
Lemma halted_idle : forall bcast me t d, halted (t_z t) -> idle_for bcast me t d.
Proof. intros bcast me t d AR e i _ (a & t' & O & T). destruct (texec_do _ _ _ _ _ T) as (z & _ & E & _). apply (halted_still bcast me _ i AR). exists a, z. auto. Qed.
Lemma halt_for : forall bcast me t1 l2 t2 d, trun bcast me t1 l2 = Some t2 -> prompt bcast me t1 l2 -> halting (t_z t2) = true -> 0 < d ->
  trun bcast me t1 (l2 ++ [TPass d]) = Some (later t2 d) /\ prompt bcast me t1 (l2 ++ [TPass d]).
Proof.
  intros bcast me t1 l2 t2 d R P RS D. split.
  - rewrite trun_app, R. cbn [trun texec]. replace (0 <? d) with true by (symmetry; apply Z.ltb_lt; exact D). reflexivity.
  - apply (prompt_app _ _ _ _ _ _ R P). cbn [SpecTime.prompt]. split; [|auto]. intros d' Q. injection Q as <-. apply halted_idle, halting_halted, RS.
Qed.

(** ** What the result has *)
Lemma collect_has : forall vs seen i, In (PubIAm i) vs -> existsb (Z.eqb (oid_inst (i_id i))) seen = false -> exists x, In x (whois_collect seen vs) /\ f_deviceid x = oid_inst (i_id i).
Proof.
  induction vs as [|v vs IH]; intros seen i H S; [destruct H|]. destruct H as [->|H]; cbn [whois_collect].
  - rewrite S. exists (found_of i). split; [left; reflexivity|reflexivity].
  - destruct v as [n|l|k]; try (apply IH; assumption). destruct (existsb (Z.eqb (oid_inst (i_id k))) seen) eqn:K; [apply IH; assumption|].
    destruct (Z.eq_dec (oid_inst (i_id i)) (oid_inst (i_id k))) as [EQ|NE].
    + exists (found_of k). split; [left; reflexivity|]. symmetry. exact EQ.
    + destruct (IH (oid_inst (i_id k) :: seen) i H) as (x & X & D); [cbn [existsb]; rewrite (proj2 (Z.eqb_neq _ _) NE); exact S|]. exists x. split; [right; exact X|exact D].
Qed.
Lemma result_tells : forall q vs p, In p vs -> tells q p (scan_result q vs).
Proof.
  intros q vs p H. destruct q as [wh| |], p as [n|l|k]; try exact Logic.I; cbn [tells scan_result].
  - destruct (collect_has vs [] k H eq_refl) as (x & X & D). exists (whois_result vs), x. auto.
  - eexists. split; [reflexivity|]. intros a A. apply in_flat_map. exists (PubNets l). auto.
  - eexists. split; [reflexivity|]. intros a A. apply in_flat_map. exists (PubNpdu n). rewrite A. split; [exact H|left; reflexivity].
Qed.
Lemma heard_told : forall bcast me l1 t0 i q t1 l2 ta j src b tb l3 t2 m f d, trun bcast me t_init l1 = Some t0 -> texec bcast me t0 (TDo (ZScan i q)) = Some t1 ->
  trun bcast me t1 l2 = Some ta -> listens i q ta -> scans_of i ta = scans_of i t0 -> texec bcast me ta (TDo (ZArrive j src b)) = Some tb -> announces src b m ->
  fst (asked_range q) <= fst m <= snd (asked_range q) ->
  trun bcast me tb l3 = Some t2 -> prompt bcast me tb l3 -> z_dead (t_z t2) = false -> scans_of i t2 = d ++ f :: scans_of i t0 ->
  sd_req f = q /\ (tells q (snd m) (sd_result f) \/ sd_failed f = true /\ sd_result f = XErr).
Proof.
  intros bcast me l1 t0 i q t1 l2 ta j src b tb l3 t2 m f d R1 E R2 LI RA EA AN RG R3 PR LV RO. rewrite <- range_asked in RG.
  destruct (heard_returned _ _ _ _ _ _ _ _ _ _ _ _ _ _ _ _ _ _ R1 E R2 LI RA EA AN RG R3 PR LV RO) as (vs & B & C & D).
  split; [exact B|]. destruct D as [D|D]; [left|right; exact D]. rewrite D. apply result_tells. exact C.
Qed.

(** ** A check that announcements come one at a time *)
Definition quietly (w : syst) : bool :=
  forallb (fun x => match x with YHandle _ _ => false | _ => true end) (y_ph w) && forallb (fun x => match sb_q x with [] => true | _ => false end) (u_objs (y_u w)).
Fixpoint singly (bcast : address) (me : option address) (t : timed) (l : list taction) : bool :=
  match l with
  | [] => true
  | a :: r =>
      match a with
      | TDo (ZArrive _ src b) => match SpecRun.published (fun _ => true) [(src, b)] with [] => true | [p] => quietly (Yt t) | _ => false end
      | _ => true
      end && match texec bcast me t a with Some t' => singly bcast me t' r | None => true end
  end.
Lemma quietly_quiet : forall w, quietly w = true -> quiet w.
Proof.
  intros w H. unfold quietly in H. apply andb_prop in H. destruct H as [H1 H2]. rewrite forallb_forall in H1, H2. split.
  - intros i ps b N. specialize (H1 _ (nth_error_In _ _ N)). discriminate H1.
  - intros s _. unfold queue. destruct (nth_error (u_objs (y_u w)) s) as [x|] eqn:N; [|reflexivity]. specialize (H2 _ (nth_error_In _ _ N)). destruct (sb_q x); [reflexivity|discriminate H2].
Qed.
Lemma singly_one : forall bcast me l t, singly bcast me t l = true -> one_by_one bcast me t l.
Proof.
  intros bcast me l. induction l as [|a l IH]; intros t H; [exact Logic.I|]. cbn [singly] in H. apply andb_prop in H. destruct H as [H1 H2]. cbn [one_by_one]. split.
  - destruct a as [[]|]; auto. destruct (SpecRun.published _ _) as [|p [|]]; [left; reflexivity| |discriminate H1]. right. split; [eauto|]. apply quietly_quiet. exact H1.
  - destruct (texec bcast me t a); [exact (IH _ H2)|exact Logic.I].
Qed.
Lemma pubs_prefix : forall bcast me l t t', trun bcast me t l = Some t' -> exists e, y_pubs (Yt t') = y_pubs (Yt t) ++ e.
Proof.
  intros bcast me l. induction l as [|a l IH]; intros t t' H; cbn [trun] in H; [injection H as <-; exists []; symmetry; apply app_nil_r|].
  destruct (texec bcast me t a) as [t1|] eqn:E; [|discriminate]. destruct (pubs_step _ _ _ _ _ E) as (m & P). destruct (IH _ _ H) as (e & K). exists (m ++ e). rewrite K, P, app_assoc. reflexivity.
Qed.
