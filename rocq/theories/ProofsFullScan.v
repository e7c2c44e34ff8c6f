(** Proofs about scans from their Who-Is to their end: C148. *)
Require Import List ZArith Bool Lia.
From Verif Require Import ModelTsm ProofsTsm.
From Verif Require Import ModelClient ModelNet ModelSystem ModelScan ModelWhole ModelTime ModelScript ModelNetScript.
From Verif Require Import SpecSystem SpecUtsm SpecScan SpecWhole SpecFair SpecTime SpecTimeScan SpecScript SpecNetScript SpecFullScan.
From Verif Require Import ModelFullScan.
From Verif Require Import ProofsSystem ProofsSystemLive ProofsScan ProofsWhole ProofsFair ProofsFairWhole ProofsFairScan ProofsTime ProofsTimeCheck ProofsTimeScan ProofsTimeHear ProofsTimeOne ProofsScript ProofsNetScript ProofsLeak.
Import ListNotations.
Open Scope Z_scope.

(** ** A goroutine in a discovery call does nothing else *)
Definition at_rest (z : whole) : Prop := forall i x, nth_error (y_ph (z_y z)) i = Some x -> scan_of x <> None ->
  nth_error (z_rest z) i = Some None /\ nth_error (w_ph (z_w z)) i <> None.
Lemma w_grows : forall me w a w' i, wexec me w a = Some w' -> nth_error (w_ph w) i <> None -> nth_error (w_ph w') i <> None.
Proof.
  intros me w a w' i E N. assert (L : (i < length (w_ph w))%nat) by (apply nth_error_Some; exact N). apply nth_error_Some. destruct a as [|j rq|j src b|j ok|j|b].
  - unfold wexec in E. destruct (w_dead _); [discriminate|]. destruct (exec _ _); [|discriminate]. injection E as <-. cbn [w_ph]. rewrite app_length. lia.
  - unfold wexec in E. destruct (w_dead _); [discriminate|]. destruct (nth_error (w_ph w) j) as [[]|]; try discriminate E. destruct (exec _ _); [|discriminate]. injection E as <-. cbn. rewrite upd_length. exact L.
  - unfold wexec in E. destruct (w_dead _); [discriminate|]. destruct (nth_error (w_ph w) j) as [[]|]; try discriminate E. destruct (handleMsg _ _ _) as [eff pn]. destruct (delivery eff) as [[id' pl]|].
    + destruct (exec _ _); [|discriminate]. injection E as <-. cbn. rewrite upd_length. exact L.
    + destruct (sy_crash _); [discriminate|]. injection E as <-. destruct pn; cbn; exact L.
  - rewrite (wstep_length _ _ _ _ E eq_refl). exact L.
  - rewrite (wstep_length _ _ _ _ E eq_refl). exact L.
  - rewrite (wstep_length _ _ _ _ E eq_refl). exact L.
Qed.
Lemma rest_step : forall bcast me z a z', zexec bcast me z a = Some z' -> at_rest z -> at_rest z'.
Proof.
  intros bcast me z a z' E IH i x N S. pose proof (zexec_live _ _ _ _ _ E) as LV.
  assert (FR : (exists x0, nth_error (y_ph (z_y z)) i = Some x0 /\ scan_of x0 <> None) \/ exists q, a = ZScan i q).
  { destruct (zexec_y _ _ _ _ _ E) as [K|(b & EY & B)]; [rewrite K in N; eauto|]. destruct (y_from _ _ _ _ _ _ _ EY N S) as [K|(q & ->)]; [auto|].
    right. exists q. destruct a as [|? ?|? ?|? ? ?|?|?|b']; try discriminate B; try (destruct B; fail).
    - injection B as <- <-. reflexivity.
    - destruct B as [<- B]. discriminate B. }
  unfold zexec in E. rewrite LV in E. unfold z_do_w, z_do_y in E.
  destruct FR as [(x0 & N0 & S0)|(q & ->)].
  - destruct (IH i x0 N0 S0) as [A B]. destruct a as [|j rq|j q|j src b|j|a|a].
    + destruct (wexec me (z_w z) WSpawn) as [w|] eqn:EW; [|discriminate]. destruct (yexec bcast me (z_y z) YSpawn) as [y|]; [|discriminate]. injection E as <-. cbn [z_w z_rest].
      split; [rewrite nth_error_app1; [exact A|apply nth_error_Some; congruence]|exact (w_grows _ _ _ _ _ EW B)].
    + destruct (z_free z j); [|discriminate]. destruct (wexec _ _ _) as [w|] eqn:EW; [|discriminate]. injection E as <-. split; [exact A|exact (w_grows _ _ _ _ _ EW B)].
    + destruct (z_free z j); [|discriminate]. destruct (yexec _ _ _ _) as [y|]; [|discriminate]. injection E as <-. split; [exact A|exact B].
    + destruct (z_free z j) eqn:FR; [|discriminate]. destruct (yexec _ _ _ _) as [y|]; [|discriminate]. injection E as <-. cbn [z_w z_rest]. split; [|exact B].
      destruct (free_parts _ _ FR) as (_ & F2 & _). assert (D : j <> i) by (intros ->; rewrite F2 in N0; injection N0 as <-; apply S0; reflexivity). rewrite upd_other by exact D. exact A.
    + destruct (nth_error (y_ph (z_y z)) j) as [[]|] eqn:YJ; try discriminate E. destruct (nth_error (z_rest z) j) as [[[src b]|]|]; try discriminate E.
      destruct (wexec _ _ _) as [w|] eqn:EW; [|discriminate]. injection E as <-. cbn [z_w z_rest]. split; [|exact (w_grows _ _ _ _ _ EW B)].
      assert (D : j <> i) by (intros ->; rewrite YJ in N0; injection N0 as <-; apply S0; reflexivity). rewrite upd_other by exact D. exact A.
    + destruct (w_step a); [|discriminate]. destruct (wexec _ _ _) as [w|] eqn:EW; [|discriminate]. injection E as <-. split; [exact A|exact (w_grows _ _ _ _ _ EW B)].
    + destruct (y_step a); [|discriminate]. destruct (yexec _ _ _ _) as [y|]; [|discriminate]. injection E as <-. split; [exact A|exact B].
  - destruct (z_free z i) eqn:FR; [|discriminate]. destruct (yexec _ _ _ _) as [y|]; [|discriminate]. injection E as <-. cbn [z_w z_rest].
    destruct (free_parts _ _ FR) as (F1 & _ & F3). split; [exact F3|congruence].
Qed.
Lemma reach_rest : forall bcast me z, zreach bcast me z -> at_rest z.
Proof.
  intros bcast me z (l & R). revert z R. induction l as [|a l IH] using rev_ind; intros z R.
  - injection R as <-. intros i x N. cbn in N. destruct i; discriminate N.
  - rewrite zrun_app in R. destruct (zrun bcast me z_init l) as [z1|] eqn:R1; [|discriminate]. cbn [zrun] in R. destruct (zexec bcast me z1 a) as [z2|] eqn:E; [|discriminate].
    injection R as <-. exact (rest_step _ _ _ _ _ E (IH _ eq_refl)).
Qed.
(** when its call has returned it is free *)
Lemma free_after : forall bcast me t a t' i f, zreach bcast me (t_z t) -> texec bcast me t a = Some t' -> scans_of i t' = f :: scans_of i t -> z_free (t_z t') i = true.
Proof.
  intros bcast me t a t' i f RE E S. destruct (t_ends _ _ _ _ _ E) as [K|(b & g & -> & EY & D & K)].
  - unfold scans_of in S. rewrite K in S. exfalso. apply (f_equal (@length _)) in S. cbn [length] in S. lia.
  - destruct (texec_do _ _ _ _ _ E) as (z & _ & Z & ->). cbn [set_z t_z] in *.
    assert (G : sd_thread g = i).
    { unfold scans_of in S. cbn [set_z t_z] in S. rewrite D in S. cbn [filter] in S. destruct (Nat.eqb_spec (sd_thread g) i) as [Q|_]; [exact Q|]. exfalso. apply (f_equal (@length _)) in S. cbn [length] in S. lia. }
    assert (X : exists x, nth_error (y_ph (z_y (t_z t))) i = Some x /\ scan_of x <> None /\ nth_error (y_ph (z_y z)) i = Some YFree).
    { unfold yexec in EY. destruct (y_dead _); [discriminate|]. destruct K as [(j & q & s & st & tx & -> & N & ST & T & _)|(j & q & s & st & fl & e & e' & -> & N & T & _)].
      - rewrite N, ST in EY. cbn [andb] in EY. injection EY as <-. subst i. subst j. eexists. split; [exact N|]. split; [discriminate|]. cbn [y_finish y_ph]. eapply upd_same; exact N.
      - rewrite N in EY. injection EY as <-. subst i. subst j. eexists. split; [exact N|]. split; [discriminate|]. cbn [y_finish y_ph]. eapply upd_same; exact N. }
    destruct X as (x & N & SX & N'). destruct (reach_rest _ _ _ RE i x N SX) as [A B].
    pose proof (zexec_live _ _ _ _ _ Z) as LVZ. unfold zexec in Z. rewrite LVZ in Z. destruct (y_step b) eqn:SB; [|discriminate]. unfold z_do_y in Z. destruct (yexec bcast me (z_y (t_z t)) b) as [y|]; [|discriminate].
    injection Z as <-. cbn [z_y] in N'. unfold z_free. cbn [z_w z_y z_rest]. rewrite N', A.
    destruct (nth_error (w_ph (z_w (t_z t))) i) as [p|] eqn:W; [|destruct (B eq_refl)].
    assert (P : p = NFree). { destruct p; try reflexivity; exfalso; rewrite (zreach_apart _ _ _ RE i _ W) in N by discriminate; injection N as <-; apply SX; reflexivity. }
    rewrite P. reflexivity.
Qed.

(** ** Runs *)
Lemma prompt_cut : forall bcast me l t t' r, trun bcast me t l = Some t' -> prompt bcast me t (l ++ r) -> prompt bcast me t l /\ prompt bcast me t' r.
Proof.
  intros bcast me l. induction l as [|a l IH]; intros t t' r H P; cbn [trun] in H; [injection H as <-; split; [exact Logic.I|exact P]|]. destruct (texec bcast me t a) as [t1|] eqn:E; [|discriminate].
  cbn [prompt app] in *. destruct P as [P1 P2]. destruct (IH _ _ _ H (P2 _ E)) as [Q1 Q2]. split; [|exact Q2]. split; [exact P1|]. intros t2 E2. rewrite E in E2. injection E2 as <-. exact Q1.
Qed.
Lemma around_run : forall bcast me i q t l t' f, asks_around bcast me i q t l t' f -> trun bcast me t l = Some t'.
Proof. intros bcast me i q t l t' f (t1 & la & tb & a & -> & E & R & _ & E' & _). cbn [trun]. rewrite E, trun_cat, R. cbn [trun]. rewrite E'. reflexivity. Qed.
Lemma around_free : forall bcast me i q t l t' f, zreach bcast me (t_z t) -> asks_around bcast me i q t l t' f -> z_free (t_z t') i = true.
Proof.
  intros bcast me i q t l t' f RE (t1 & la & tb & a & _ & E & R & S & E' & S'). pose proof (reach_run _ _ _ _ _ (reach_step _ _ _ _ _ RE E) R) as RB.
  apply (free_after _ _ _ _ _ _ f RB E'). rewrite S. exact S'.
Qed.
Lemma around_last : forall bcast me i q t l t' f, asks_around bcast me i q t l t' f -> exists tb a, texec bcast me tb (TDo a) = Some t' /\ t_now tb = t_now t'.
Proof.
  intros bcast me i q t l t' f (t1 & la & tb & a & _ & _ & _ & S & E' & S'). destruct a as [a|d].
  - exists tb, a. split; [exact E'|]. symmetry. exact (now_do _ _ _ _ _ E').
  - exfalso. cbn [texec] in E'. destruct (0 <? d); [|discriminate]. injection E' as <-. unfold scans_of in S'. cbn [t_z] in S'. unfold scans_of in S. rewrite S in S'.
    apply (f_equal (@length _)) in S'. cbn [length] in S'. lia.
Qed.
Lemma around_time : forall bcast me l0 t0 i q l t' f r, trun bcast me t_init l0 = Some t0 -> asks_around bcast me i q t0 l t' f -> prompt bcast me t0 (l ++ r) -> never_stuck bcast me i (scans_of i t0) t0 (l ++ r) ->
  z_dead (t_z t') = false -> 2000 <= t_now t' - t_now t0 <= 10000.
Proof.
  intros bcast me l0 t0 i q l t' f r R0 AR PR NS LV. pose proof (around_run _ _ _ _ _ _ _ _ AR) as RR. destruct (prompt_cut _ _ _ _ _ _ RR PR) as [PR' _].
  destruct AR as (t1 & la & tb & a & -> & E & R & S & E' & S').
  assert (RL : trun bcast me t1 (la ++ [a]) = Some t') by (rewrite trun_cat, R; cbn [trun]; rewrite E'; reflexivity).
  split.
  - pose proof (scan_never_early _ _ _ _ _ _ _ _ _ f [] R0 E RL LV S') as K. lia.
  - assert (NW : t_now t' = t_now tb).
    { destruct a as [a|d]; [exact (now_do _ _ _ _ _ E')|]. exfalso. cbn [texec] in E'. destruct (0 <? d); [|discriminate]. injection E' as <-. unfold scans_of in S'. cbn [t_z] in S'. unfold scans_of in S. rewrite S in S'.
      apply (f_equal (@length _)) in S'. cbn [length] in S'. lia. }
    rewrite NW. destruct (Z.le_gt_cases (t_now tb - t_now t0) 10000) as [K|K]; [exact K|]. exfalso.
    assert (LB : z_dead (t_z tb) = false) by (apply (live_back bcast me [a] tb t'); [cbn [trun]; rewrite E'; reflexivity|exact LV]).
    cbn [prompt] in PR'. destruct PR' as [_ PR1]. destruct (prompt_cut _ _ _ _ _ _ R (PR1 _ E)) as [PR2 _].
    assert (NS' : never_stuck bcast me i (scans_of i t0) t1 la).
    { intros xa xb ta -> RA. apply (NS (TDo (ZScan i q) :: xa) (xb ++ [a] ++ r) ta).
      - cbn [app]. f_equal. rewrite <- !app_assoc. reflexivity.
      - cbn [trun]. rewrite E. exact RA. }
    destruct (scan_in_time _ _ _ _ _ _ _ _ _ R0 E R PR2 LB NS' ltac:(lia)) as (f' & d & Q & _). rewrite S in Q. apply (f_equal (@length _)) in Q. rewrite app_length in Q. cbn [length] in Q. lia.
Qed.

(** ** Whole scans *)
Lemma full_parts : forall A bcast me i wh (rest : cerr + list found -> script A) l0 t0 l t' f w s fs, trun bcast me t_init l0 = Some t0 -> full_scan bcast me i wh rest t0 l t' f w s fs ->
  exists la lb tm, l = la ++ lb /\ asks_around bcast me i (QWho wh) t0 la tm f /\ whois_gives (sd_result f) w /\
    trun bcast me t_init (l0 ++ la) = Some tm /\ z_free (t_z tm) i = true /\ performs bcast me i tm (rest w) lb t' s fs /\
    without_pause bcast me i tm (rest w) lb /\ trun bcast me tm lb = Some t'.
Proof.
  intros A bcast me i wh rest l0 t0 l t' f w s fs R0 (la & lb & tm & -> & AR & W & P & WP). exists la, lb, tm. split; [reflexivity|]. split; [exact AR|]. split; [exact W|].
  pose proof (reach_run _ _ _ _ _ (reach_init bcast me) R0) as RE. split; [rewrite trun_cat, R0; exact (around_run _ _ _ _ _ _ _ _ AR)|]. split; [exact (around_free _ _ _ _ _ _ _ _ RE AR)|].
  split; [exact P|]. split; [exact WP|]. exact (performs_run _ _ _ _ _ _ _ _ _ _ P).
Qed.
(** the Who-Is and [n] ms for what follows *)
Lemma full_time : forall A bcast me i wh (rest : cerr + list found -> script A) l0 t0 l t' f w s fs n, trun bcast me t_init l0 = Some t0 -> full_scan bcast me i wh rest t0 l t' f w s fs ->
  prompt bcast me t0 l -> never_stuck bcast me i (scans_of i t0) t0 l -> z_dead (t_z t') = false ->
  (forall la lb tm, l = la ++ lb -> trun bcast me t_init (l0 ++ la) = Some tm -> z_free (t_z tm) i = true -> performs bcast me i tm (rest w) lb t' s fs -> prompt bcast me tm lb ->
    without_pause bcast me i tm (rest w) lb -> t_now t' - t_now tm <= n) ->
  2000 <= t_now t' - t_now t0 <= 10000 + n.
Proof.
  intros A bcast me i wh rest l0 t0 l t' f w s fs n R0 FS PR NS LV H. destruct (full_parts _ _ _ _ _ _ _ _ _ _ _ _ _ _ R0 FS) as (la & lb & tm & -> & AR & W & RM & FR & P & WP & RB).
  pose proof (live_back _ _ _ _ _ RB LV) as LM. pose proof (around_time _ _ _ _ _ _ _ _ _ _ R0 AR PR NS LM) as T.
  destruct (prompt_cut _ _ _ _ _ _ (around_run _ _ _ _ _ _ _ _ AR) PR) as [_ PB]. pose proof (H la lb tm eq_refl RM FR P PB WP) as K.
  pose proof (now_run _ _ _ _ _ RB) as M. lia.
Qed.
Lemma one_served : forall bcast me l0 t0 l i, trun bcast me t_init l0 = Some t0 -> one_by_one bcast me t_init (l0 ++ l) -> never_stuck bcast me i (scans_of i t0) t0 l.
Proof.
  intros bcast me l0 t0 l i R0 O la lb ta -> RA _ _. assert (R : trun bcast me t_init (l0 ++ la) = Some ta) by (rewrite trun_cat, R0; exact RA).
  pose proof (reach_run _ _ _ _ _ (reach_init bcast me) R) as RE. destruct (zreach_y _ _ _ RE) as (seen & I).
  apply (cinv_free seen); [exact I|]. apply (one_cinv bcast me (l0 ++ la) t_init ta lb (reach_init bcast me) cinv_start R). rewrite <- app_assoc. exact O.
Qed.
(** at most [n] requests *)
Fixpoint calls_le {A} (n : nat) (s : script A) {struct s} : Prop :=
  match s with SEnd _ => True | SCall rq k => match n with O => False | S n' => forall x, calls_le n' (k x) end end.
Lemma calls_then : forall A B (s : script A) (k : outcome A -> script B) n m, calls_le n s -> (forall r, calls_le m (k r)) -> calls_le (n + m) (sthen s k).
Proof.
  intros A B s k n m. revert n. induction s as [r|rq c IH]; intros n C K; cbn [sthen].
  - specialize (K r). clear C. revert m K. generalize (k r). induction n as [|n IHn]; intros u m K; [exact K|]. cbn [Nat.add].
    specialize (IHn u m K). revert IHn. clear. generalize (n + m)%nat. intros q. revert q. induction u as [r|rq c IH]; intros q H; [exact Logic.I|]. destruct q as [|q]; [destruct H|]. intros x. cbn [calls_le] in H. apply IH. apply H.
  - destruct n as [|n]; [destruct C|]. cbn [Nat.add calls_le] in *. intros x. apply IH; [apply C|exact K].
Qed.
Lemma calls_bind : forall A B (s : script A) (k : A -> script B) n m, calls_le n s -> (forall r, calls_le m (k r)) -> calls_le (n + m) (nsbind s k).
Proof. intros A B s k n m C K. apply calls_then; [exact C|]. intros [r|e| |]; [apply K|..]; exact Logic.I. Qed.
Lemma calls_ignoring : forall s, calls_le 1 s -> calls_le 1 (signoring s).
Proof. intros s C. apply (calls_then _ _ _ _ 1 0 C). intros r. exact Logic.I. Qed.
Lemma calls_details : forall read ps x, (forall p, calls_le 1 (read p)) -> calls_le (length ps) (details_script read ps x).
Proof.
  intros read ps. induction ps as [|p ps IH]; intros x H; [exact Logic.I|]. cbn [details_script length]. apply (calls_bind _ _ _ _ 1 (length ps)); [apply calls_ignoring, H|]. intros r. apply IH. exact H.
Qed.
Lemma calls_read : forall dev rp, calls_le 1 (read_script dev rp).
Proof. intros. cbn [read_script calls_le]. intros x. destruct x as [[]| | |]; exact Logic.I. Qed.
Lemma calls_net_discover : forall fs, calls_le (4 * length fs) (net_discover_script fs).
Proof.
  induction fs as [|f fs IH]; [exact Logic.I|]. cbn [net_discover_script]. replace (4 * length (f :: fs))%nat with (4 + (4 * length fs + 0))%nat by (cbn [length]; lia).
  apply calls_bind; [apply (calls_details _ detail_props); intros; apply calls_read|]. intros x. apply calls_bind; [exact IH|]. intros; exact Logic.I.
Qed.
Lemma calls_discover : forall fs ps d, calls_le (4 * length fs) (discover_script ps d fs).
Proof.
  induction fs as [|f fs IH]; intros ps d; [exact Logic.I|]. cbn [discover_script]. replace (4 * length (f :: fs))%nat with (4 + 4 * length fs)%nat by (cbn [length]; lia).
  apply calls_bind; [apply (calls_details _ detail_props); intros; apply calls_read|]. intros x. apply IH.
Qed.
Lemma consumed_calls : forall A fs n (s s' : script A), calls_le n s -> consumed s fs s' -> (length fs + match s' with SCall _ _ => 1 | SEnd _ => 0 end <= n)%nat.
Proof.
  intros A fs. induction fs as [|f fs IH]; intros n s s' C K; cbn [consumed length] in *.
  - subst s'. destruct s; cbn [calls_le] in C; [lia|]. destruct n; [destruct C|lia].
  - destruct K as (k & -> & K). destruct n; [destruct C|]. specialize (IH n _ _ (C _) K). lia.
Qed.
Lemma calls_time : forall A bcast me l0 t0 i l t' (s s' : script A) fs n, trun bcast me t_init l0 = Some t0 -> z_free (t_z t0) i = true ->
  performs bcast me i t0 s l t' s' fs -> all_reads s -> calls_le n s -> prompt bcast me t0 l -> without_pause bcast me i t0 s l -> z_dead (t_z t') = false ->
  t_now t' - t_now t0 <= 6000 * Z.of_nat n.
Proof.
  intros A bcast me l0 t0 i l t' s s' fs n R0 FR P AR C PR WP LV. pose proof (reads_in_time _ _ _ _ _ _ _ _ _ _ _ R0 FR P AR PR WP LV) as T.
  assert (K : keeps i t0 s). { destruct (free_parts _ _ FR) as (N & _). exists NFree. split; [exact N|exact Logic.I]. }
  destruct (performs_follows _ _ _ _ _ _ _ _ _ _ P K) as (CS & _). pose proof (consumed_calls _ _ _ _ _ C CS) as Q. destruct s'; lia.
Qed.
Lemma full_discover_time : forall bcast me i wh l0 t0 l t' f w s fs, trun bcast me t_init l0 = Some t0 -> full_scan bcast me i wh NetworkDiscover_rest t0 l t' f w s fs ->
  prompt bcast me t0 l -> never_stuck bcast me i (scans_of i t0) t0 l -> z_dead (t_z t') = false -> 2000 <= t_now t' - t_now t0 <= 10000 + 24000 * devices w.
Proof.
  intros bcast me i wh l0 t0 l t' f w s fs R0 FS PR NS LV. apply (full_time _ _ _ _ _ _ _ _ _ _ _ _ _ _ _ R0 FS PR NS LV). intros la lb tm _ RM FR P PB WP. destruct w as [e|fd]; cbn [NetworkDiscover_rest devices] in *.
  - pose proof (calls_time _ _ _ _ _ _ _ _ _ _ _ 0 RM FR P Logic.I Logic.I PB WP LV) as T. lia.
  - pose proof (calls_time _ _ _ _ _ _ _ _ _ _ _ _ RM FR P (reads_net_discover _) (calls_net_discover _) PB WP LV) as T. lia.
Qed.
Lemma full_devices_time : forall bcast me i wh d l0 t0 l t' f w s fs, trun bcast me t_init l0 = Some t0 -> full_scan bcast me i wh (DeviceDiscover_rest d) t0 l t' f w s fs ->
  prompt bcast me t0 l -> never_stuck bcast me i (scans_of i t0) t0 l -> z_dead (t_z t') = false -> 2000 <= t_now t' - t_now t0 <= 10000 + 24000 * devices w.
Proof.
  intros bcast me i wh d l0 t0 l t' f w s fs R0 FS PR NS LV. apply (full_time _ _ _ _ _ _ _ _ _ _ _ _ _ _ _ R0 FS PR NS LV). intros la lb tm _ RM FR P PB WP. destruct w as [e|fd]; cbn [DeviceDiscover_rest devices] in *.
  - pose proof (calls_time _ _ _ _ _ _ _ _ _ _ _ 0 RM FR P Logic.I Logic.I PB WP LV) as T. lia.
  - pose proof (calls_time _ _ _ _ _ _ _ _ _ _ _ _ RM FR P (reads_discover _ _ _) (calls_discover _ _ _) PB WP LV) as T. lia.
Qed.
Lemma full_objects_time : forall bcast me i wh d id l0 t0 l t' f w os d' fs, trun bcast me t_init l0 = Some t0 -> full_scan bcast me i wh (DeviceObjects_rest d id) t0 l t' f w (SEnd (COk (os, d'))) fs ->
  prompt bcast me t0 l -> never_stuck bcast me i (scans_of i t0) t0 l -> z_dead (t_z t') = false -> 2000 <= t_now t' - t_now t0 <= 10000 + 6000 * (2 + Z.of_nat (length os)).
Proof.
  intros bcast me i wh d id l0 t0 l t' f w os d' fs R0 FS PR NS LV. apply (full_time _ _ _ _ _ _ _ _ _ _ _ _ _ _ _ R0 FS PR NS LV). intros la lb tm _ RM FR P PB WP.
  exact (device_objects_time _ _ _ _ _ _ _ _ _ _ _ _ _ RM FR P PB WP LV).
Qed.
Lemma full_points_time : forall bcast me i wh d id l0 t0 l t' f w ps fs, trun bcast me t_init l0 = Some t0 -> full_scan bcast me i wh (GetDevicePoints_rest d id) t0 l t' f w (SEnd (COk ps)) fs ->
  prompt bcast me t0 l -> never_stuck bcast me i (scans_of i t0) t0 l -> z_dead (t_z t') = false ->
  exists envs os d', arrived_in (steps (l0 ++ l)) envs fs /\ snd (DeviceObjects 0 envs me d id (Some w)) = COk (os, d') /\
    length ps = length (filter (fun o => negb (oid_type o =? 8)) os) /\
    2000 <= t_now t' - t_now t0 <= 10000 + 6000 * (2 + Z.of_nat (length os) + 2 * Z.of_nat (length ps)).
Proof.
  intros bcast me i wh d id l0 t0 l t' f w ps fs R0 FS PR NS LV. destruct (full_parts _ _ _ _ _ _ _ _ _ _ _ _ _ _ R0 FS) as (la & lb & tm & -> & AR & W & RM & FR & P & WP & RB).
  pose proof (around_time _ _ _ _ _ _ _ _ _ _ R0 AR PR NS (live_back _ _ _ _ _ RB LV)) as T. destruct (prompt_cut _ _ _ _ _ _ (around_run _ _ _ _ _ _ _ _ AR) PR) as [_ PB].
  destruct (points_time _ _ _ _ _ _ _ _ _ _ _ _ RM FR P PB WP LV) as (envs & os & d' & A1 & A2 & A3 & A4). exists envs, os, d'. rewrite app_assoc. split; [exact A1|]. split; [exact A2|]. split; [exact A3|].
  pose proof (now_run _ _ _ _ _ RB). lia.
Qed.

(** ** What it returns *)
Lemma net_loop_ids : forall envs me fs k bs tr, net_discover_loop k envs me fs = (tr, COk bs) -> map bd_deviceid bs = map f_deviceid fs.
Proof.
  intros envs me fs. induction fs as [|f fs IH]; intros k bs tr H; cbn [net_discover_loop] in H; [injection H as _ <-; reflexivity|]. cbv zeta in H. unfold nbind in H.
  destruct (net_GetDeviceDetails _ _ _ _) as [tr1 r1]. destruct r1 as [x| | |]; try discriminate H. destruct (net_discover_loop (k + 4) envs me fs) as [tr2 r2] eqn:E. destruct r2 as [bs'| | |]; try discriminate H.
  cbn in H. injection H as _ <-. cbn [map]. f_equal. exact (IH _ _ _ E).
Qed.
Lemma around_asked : forall bcast me l0 t0 i q l t' f, trun bcast me t_init l0 = Some t0 -> asks_around bcast me i q t0 l t' f -> z_dead (t_z t') = false -> sd_req f = q.
Proof.
  intros bcast me l0 t0 i q l t' f R0 (t1 & la & tb & a & _ & E & R & _ & E' & S) LV. pose proof (reach_run _ _ _ _ _ (reach_init bcast me) R0) as RE.
  assert (RL : trun bcast me t1 (la ++ [a]) = Some t') by (rewrite trun_cat, R; cbn [trun]; rewrite E'; reflexivity).
  destruct (scan_starts _ _ _ _ _ _ E (live_back _ _ _ _ _ RL LV)) as (SC & NW & RO1). pose proof (reach_step _ _ _ _ _ RE E) as RE1.
  assert (RT1 : trun bcast me t_init (l0 ++ [TDo (ZScan i q)]) = Some t1) by (rewrite trun_cat, R0; cbn [trun]; rewrite E; reflexivity).
  assert (S1 : saned i q (scans_of i t0) t1) by (left; do 2 eexists; split; [exact SC|]; split; [exact Logic.I|exact RO1]).
  destruct (saned_run _ _ _ _ _ _ _ _ RE1 RL (heard_run _ _ _ _ RT1) S1) as [(x & p & _ & _ & RO)|(g & d & RO & FQ)].
  - rewrite S in RO. apply (f_equal (@length _)) in RO. cbn [length] in RO. lia.
  - rewrite S in RO. destruct d as [|g' d]; [injection RO as ->; exact FQ|]. apply (f_equal (@length _)) in RO. cbn [length app] in RO. rewrite app_length in RO. cbn [length] in RO. lia.
Qed.
Lemma end_performs : forall A bcast me i l t x t' r fs, performs bcast me i t (@SEnd A x) l t' (SEnd r) fs -> r = x /\ fs = [].
Proof.
  intros A bcast me i l. induction l as [|a l IH]; intros t x t' r fs P; cbn [performs] in P; [destruct P as (_ & E & ->); injection E as ->; auto|].
  destruct P as (_ & t1 & _ & [(_ & P)|(f & rq & k & fs' & _ & K & _)]); [eapply IH; exact P|discriminate K].
Qed.
Lemma full_listed : forall bcast me i wh l0 t0 l t' f w r fs, trun bcast me t_init l0 = Some t0 -> full_scan bcast me i wh NetworkDiscover_rest t0 l t' f w (SEnd r) fs ->
  z_dead (t_z t') = false -> exists envs, NetworkDiscover envs me w = (flat_map fi_sent fs, r) /\ arrived_in (steps (l0 ++ l)) envs fs /\ (no_reuse (steps (l0 ++ l)) -> own_in (steps (l0 ++ l)) envs fs) /\
  forall bs, r = COk bs -> NoDup (map bd_deviceid bs) /\
    forall b, In b bs -> exists ia src by_ th, In (ZArrive th src by_) (steps (l0 ++ l)) /\ announces src by_ (oid_inst (i_id ia), PubIAm ia) /\
      SpecClient.requested_low wh <= oid_inst (i_id ia) <= SpecClient.requested_high wh /\ bd_deviceid b = oid_inst (i_id ia).
Proof.
  intros bcast me i wh l0 t0 l t' f w r fs R0 FS LV. destruct (full_parts _ _ _ _ _ _ _ _ _ _ _ _ _ _ R0 FS) as (la & lb & tm & -> & AR & W & RM & FR & P & WP & RB).
  pose proof (around_asked _ _ _ _ _ _ _ _ _ R0 AR (live_back _ _ _ _ _ RB LV)) as Q.
  destruct w as [e|fd]; cbn [NetworkDiscover_rest] in P.
  - destruct (end_performs _ _ _ _ _ _ _ _ _ _ P) as [-> ->]. exists (fun _ => no_env). cbn. split; [reflexivity|].
    assert (K : forall n f0, nth_error (@nil finished) n = Some f0 -> ev_id no_env = fi_id f0) by (intros [|n] f0 N; discriminate N).
    split; [split; [exact K|]|]. + intros n k g p N. discriminate N. + split; [|intros bs H; discriminate H]. intros _. split; [exact K|]. intros n k g p N. discriminate N.
  - destruct (net_discover_shared _ _ _ _ _ _ _ _ _ _ RM FR P) as (envs & E & A1 & A2). exists envs. rewrite app_assoc. split; [exact E|]. split; [exact A1|]. split; [exact A2|]. intros bs ->.
    destruct (sd_result f) as [fd'| |] eqn:RS; [|destruct W|destruct W]. cbn [whois_gives] in W. subst fd. cbn [NetworkDiscover] in E. pose proof (net_loop_ids _ _ _ _ _ _ E) as ID. rewrite ID.
    pose proof (steps_run _ _ _ _ _ RM) as ZR. change (t_z t_init) with z_init in ZR.
    assert (IF : In f (y_done (z_y (t_z tm)))). { destruct AR as (_ & _ & _ & _ & _ & _ & _ & _ & _ & S). assert (H : In f (scans_of i tm)) by (rewrite S; left; reflexivity). apply filter_In in H. apply H. }
    destruct (whole_found _ _ _ _ _ _ _ ZR IF Q RS) as [ND FD]. split; [exact ND|]. intros b HB.
    assert (IB : In (bd_deviceid b) (map f_deviceid fd')) by (rewrite <- ID; apply in_map; exact HB). apply in_map_iff in IB. destruct IB as (x & EX & IX).
    destruct (FD x IX) as (ia & src & by_ & th & H1 & H2 & H3 & ->). exists ia, src, by_, th. split; [rewrite steps_app; apply in_or_app; left; exact H1|]. split; [exact H2|]. split; [exact H3|].
    rewrite <- EX. reflexivity.
Qed.
(** a device that was heard is listed *)
Lemma full_heard : forall bcast me i wh l0 t0 l t' f w bs fs l1 ta j src b l2 ia, trun bcast me t_init l0 = Some t0 ->
  full_scan bcast me i wh NetworkDiscover_rest t0 l t' f w (SEnd (COk bs)) fs -> prompt bcast me t0 l -> z_dead (t_z t') = false ->
  l = TDo (ZScan i (QWho wh)) :: l1 ++ TDo (ZArrive j src b) :: l2 -> trun bcast me t0 (TDo (ZScan i (QWho wh)) :: l1) = Some ta ->
  listens i (QWho wh) ta -> scans_of i ta = scans_of i t0 -> announces src b (oid_inst (i_id ia), PubIAm ia) ->
  SpecClient.requested_low wh <= oid_inst (i_id ia) <= SpecClient.requested_high wh ->
  In (oid_inst (i_id ia)) (map bd_deviceid bs).
Proof.
  intros bcast me i wh l0 t0 l t' f w bs fs l1 ta j src b l2 ia R0 FS PR LV EL RA LI SA AN RG.
  destruct (full_parts _ _ _ _ _ _ _ _ _ _ _ _ _ _ R0 FS) as (la & lb & tm & EL' & AR & W & RM & FR & P & WP & RB).
  assert (RT : trun bcast me t0 l = Some t') by (rewrite EL', trun_cat, (around_run _ _ _ _ _ _ _ _ AR); exact RB).
  pose proof RA as RA'. cbn [trun] in RA. destruct (texec bcast me t0 (TDo (ZScan i (QWho wh)))) as [t1|] eqn:E; [|discriminate].
  rewrite EL in RT. rewrite app_comm_cons, trun_cat, RA' in RT. cbn [trun] in RT. destruct (texec bcast me ta (TDo (ZArrive j src b))) as [tb|] eqn:EA; [|discriminate].
  rewrite EL, app_comm_cons in PR. destruct (prompt_cut _ _ _ _ _ _ RA' PR) as [_ PR2]. cbn [prompt] in PR2. pose proof (proj2 PR2 _ EA) as PR3.
  destruct (scans_grow _ _ _ _ _ i RB) as (d & SG). assert (SF : scans_of i tm = f :: scans_of i t0) by (destruct AR as (? & ? & ? & ? & _ & _ & _ & _ & _ & S); exact S). rewrite SF in SG.
  destruct (heard_told _ _ _ _ _ _ _ _ _ _ _ _ _ _ _ (oid_inst (i_id ia), PubIAm ia) _ _ R0 E RA LI SA EA AN RG RT PR3 LV SG) as [_ H]. cbn [snd tells] in H.
  destruct w as [e|fd]; cbn [NetworkDiscover_rest] in P; [destruct (end_performs _ _ _ _ _ _ _ _ _ _ P) as [K _]; discriminate K|].
  destruct (net_discover_shared _ _ _ _ _ _ _ _ _ _ RM FR P) as (envs & EN & _). cbn [NetworkDiscover] in EN. rewrite (net_loop_ids _ _ _ _ _ _ EN).
  destruct H as [(ds & x & RS & IX & IDX)|[_ RS]]; rewrite RS in W; cbn [whois_gives] in W; [|destruct W]. rewrite W, <- IDX. apply in_map. exact IX.
Qed.
(** the Who-Is for one device *)
Lemma one_device : forall A bcast me i id (rest : cerr + list found -> script A) l0 t0 l t' f fd s fs, 0 < id -> trun bcast me t_init l0 = Some t0 ->
  full_scan bcast me i (objects_whois id) rest t0 l t' f (inr fd) s fs -> z_dead (t_z t') = false -> fd = [] \/ exists x, fd = [x] /\ f_deviceid x = id.
Proof.
  intros A bcast me i id rest l0 t0 l t' f fd s fs ID R0 FS LV. destruct (full_parts _ _ _ _ _ _ _ _ _ _ _ _ _ _ R0 FS) as (la & lb & tm & -> & AR & W & RM & FR & P & WP & RB).
  pose proof (around_asked _ _ _ _ _ _ _ _ _ R0 AR (live_back _ _ _ _ _ RB LV)) as Q. destruct (sd_result f) as [fd'| |] eqn:RS; [|destruct W|destruct W]. cbn [whois_gives] in W. subst fd'.
  pose proof (steps_run _ _ _ _ _ RM) as ZR. change (t_z t_init) with z_init in ZR.
  assert (IF : In f (y_done (z_y (t_z tm)))). { destruct AR as (_ & _ & _ & _ & _ & _ & _ & _ & _ & S). assert (H : In f (scans_of i tm)) by (rewrite S; left; reflexivity). apply filter_In in H. apply H. }
  destruct (whole_found _ _ _ _ _ _ _ ZR IF Q RS) as [ND FD].
  assert (K : forall x, In x fd -> f_deviceid x = id).
  { intros x IX. destruct (FD x IX) as (ia & src & by_ & th & _ & _ & RG & ->). unfold SpecClient.requested_low, SpecClient.requested_high, objects_whois in RG. cbn [wh_low wh_high] in RG.
    change (f_deviceid (found_of ia)) with (oid_inst (i_id ia)). destruct (Z.ltb_spec 0 id); lia. }
  destruct fd as [|x [|y fd]]; [left; reflexivity|right; exists x; split; [reflexivity|apply K; left; reflexivity]|]. exfalso. cbn [map] in ND. inversion ND as [|? ? NI _]. apply NI. left.
  rewrite (K x), (K y); [reflexivity|right; left; reflexivity|left; reflexivity].
Qed.
(** it has nothing before its Who-Is has returned *)
Lemma full_needs : forall A bcast me i wh (rest : cerr + list found -> script A) t0 la lb t2 t' f w s fs, full_scan bcast me i wh rest t0 la t' f w s fs -> trun bcast me t0 (la ++ lb) = Some t2 -> scans_of i t2 <> scans_of i t0.
Proof.
  intros A bcast me i wh rest t0 la lb t2 t' f w s fs (l1 & l2 & tm & -> & AR & _ & P & _) R K. rewrite trun_cat, trun_cat, (around_run _ _ _ _ _ _ _ _ AR), (performs_run _ _ _ _ _ _ _ _ _ _ P) in R.
  destruct (scans_grow _ _ _ _ _ i (performs_run _ _ _ _ _ _ _ _ _ _ P)) as (d1 & S1). destruct (scans_grow _ _ _ _ _ i R) as (d2 & S2).
  destruct AR as (? & ? & ? & ? & _ & _ & _ & _ & _ & S). rewrite S2, S1, S in K. apply (f_equal (@length _)) in K. rewrite !app_length in K. cbn [length] in K. lia.
Qed.

(** ** Checking a run *)
Definition given (r : sresult) : option (cerr + list found) := match r with XDevices fs => Some (inr fs) | XErr => Some (inl CSend) | XAddrs _ => None end.
Definition scanned {A} (bcast : address) (me : option address) (i : nat) (l0 : list taction) (wh : whoIsOpts) (la : list taction) (a : taction) (rest : cerr + list found -> script A)
  (l : list (option taction)) (chk : timed -> timed -> sdone -> cerr + list found -> script A -> list finished -> bool) : bool :=
  match trun bcast me t_init l0 with None => false | Some t0 =>
  match texec bcast me t0 (TDo (ZScan i (QWho wh))) with None => false | Some t1 =>
  match trun bcast me t1 la with None => false | Some tb =>
  match texec bcast me tb a with None => false | Some tm =>
  match scans_of i tm with [] => false | f :: _ =>
  match given (sd_result f) with None => false | Some w =>
  match drive bcast me i tm (rest w) l with None => false | Some (lb, (t', (s, fs))) =>
    Nat.eqb (length (scans_of i tb)) (length (scans_of i t0)) && Nat.eqb (length (scans_of i tm)) (S (length (scans_of i t0))) &&
    promptly bcast me t0 (TDo (ZScan i (QWho wh)) :: la ++ a :: lb) && singly bcast me t_init (l0 ++ TDo (ZScan i (QWho wh)) :: la ++ a :: lb) && negb (z_dead (t_z t')) && chk t0 t' f w s fs
  end end end end end end end.
Lemma scanned_shown : forall A bcast me i l0 wh la a (rest : cerr + list found -> script A) l chk, scanned bcast me i l0 wh la a rest l chk = true ->
  exists t0 lb t' f w s fs, trun bcast me t_init l0 = Some t0 /\ full_scan bcast me i wh rest t0 (TDo (ZScan i (QWho wh)) :: la ++ a :: lb) t' f w s fs /\
    prompt bcast me t0 (TDo (ZScan i (QWho wh)) :: la ++ a :: lb) /\ one_by_one bcast me t_init (l0 ++ TDo (ZScan i (QWho wh)) :: la ++ a :: lb) /\
    z_dead (t_z t') = false /\ chk t0 t' f w s fs = true.
Proof.
  intros A bcast me i l0 wh la a rest l chk H. unfold scanned in H. destruct (trun bcast me t_init l0) as [t0|] eqn:R0; [|discriminate]. destruct (texec bcast me t0 _) as [t1|] eqn:E1; [|discriminate].
  destruct (trun bcast me t1 la) as [tb|] eqn:R1; [|discriminate]. destruct (texec bcast me tb a) as [tm|] eqn:E2; [|discriminate]. destruct (scans_of i tm) as [|f old] eqn:SM; [discriminate|].
  destruct (given (sd_result f)) as [w|] eqn:GW; [|discriminate]. destruct (drive bcast me i tm (rest w) l) as [[lb [t' [s fs]]]|] eqn:D; [|discriminate].
  apply andb_prop in H. destruct H as [H H6]. apply andb_prop in H. destruct H as [H H5]. apply andb_prop in H. destruct H as [H H4]. apply andb_prop in H. destruct H as [H H3]. apply andb_prop in H. destruct H as [H1 H2].
  apply Nat.eqb_eq in H1, H2. apply negb_true_iff in H5. destruct (drive_performs _ _ _ _ _ _ _ _ _ _ _ D) as [P WP]. exists t0, lb, t', f, w, s, fs.
  split; [reflexivity|]. split; [|split; [apply promptly_prompt; exact H3|split; [apply singly_one; exact H4|split; [exact H5|exact H6]]]].
  assert (RB : trun bcast me t0 (TDo (ZScan i (QWho wh)) :: la) = Some tb) by (cbn [trun]; rewrite E1; exact R1).
  assert (SB : scans_of i tb = scans_of i t0). { destruct (scans_grow _ _ _ _ _ i RB) as (d & S). rewrite S, app_length in H1. destruct d; [exact S|cbn [length] in H1; lia]. }
  exists (TDo (ZScan i (QWho wh)) :: la ++ [a]), lb, tm. split; [cbn [app]; rewrite <- app_assoc; reflexivity|]. split; [|split; [|split; [exact P|exact WP]]].
  - exists t1, la, tb, a. split; [reflexivity|]. split; [exact E1|]. split; [exact R1|]. split; [exact SB|]. split; [exact E2|].
    destruct (scans_grow bcast me [a] tb tm i) as (d & S); [cbn [trun]; rewrite E2; reflexivity|]. rewrite SM, SB in S. cbn [length] in H2. destruct d as [|g [|]].
    + cbn [app] in S. apply (f_equal (@length _)) in S. cbn [length] in S. lia.
    + cbn [app] in S. injection S as <- ->. exact SM.
    + apply (f_equal (@length _)) in S. cbn [length app] in S. rewrite app_length in S. lia.
  - destruct (sd_result f); cbn [given] in GW; try discriminate GW; injection GW as <-; cbn; auto.
Qed.
