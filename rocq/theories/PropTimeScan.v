(** * C131, C132, C133: how long discovery calls take, and what they hear *)
From Coq Require Import Lia.
From Verif Require Import ModelClient ModelSystem ModelScan ModelWhole ModelTime SpecRun SpecScan SpecWire SpecLayers SpecServices SpecFair SpecTime SpecTimeScan.
From Verif Require ModelTsm ModelUtsm.
From Verif Require Import ProofsFairScan ProofsTime ProofsTimeScan ProofsTimeHear ProofsTimeCheck ProofsTimeOne.
Import ListNotations.
Open Scope Z_scope.

(** C131.  If time passes only while nothing can go on, a discovery call has returned after
    10 s exactly if discovery did not get stuck while the call was in Subscribe. *)
Theorem c131_exact : forall bcast me l1 t0 i q t1 l2 t2,
  trun bcast me t_init l1 = Some t0 -> texec bcast me t0 (TDo (ZScan i q)) = Some t1 -> trun bcast me t1 l2 = Some t2 ->
  SpecTime.prompt bcast me t1 l2 -> z_dead (t_z t2) = false -> 10000 < t_now t2 - t_now t0 ->
  ((exists f d, scans_of i t2 = d ++ f :: scans_of i t0 /\ sd_req f = q) <-> never_stuck bcast me i (scans_of i t0) t1 l2).
Proof. exact scan_exact. Qed.
Print Assumptions c131_exact.
(** It has, if announcements come one at a time. *)
Theorem c131_one_by_one_partial : forall bcast me l1 t0 i q t1 l2 t2,
  trun bcast me t_init l1 = Some t0 -> texec bcast me t0 (TDo (ZScan i q)) = Some t1 -> trun bcast me t1 l2 = Some t2 ->
  SpecTime.prompt bcast me t1 l2 -> z_dead (t_z t2) = false -> one_by_one bcast me t_init (l1 ++ TDo (ZScan i q) :: l2) ->
  10000 < t_now t2 - t_now t0 -> exists f d, scans_of i t2 = d ++ f :: scans_of i t0 /\ sd_req f = q.
Proof. exact scan_one_by_one. Qed.
Print Assumptions c131_one_by_one_partial.
(** And it has after 2 s without an announcement. *)
Theorem c131_silence_partial : forall bcast me l1 t0 i q t1 l2 tm l3 t2,
  trun bcast me t_init l1 = Some t0 -> texec bcast me t0 (TDo (ZScan i q)) = Some t1 -> trun bcast me t1 l2 = Some tm -> trun bcast me tm l3 = Some t2 ->
  SpecTime.prompt bcast me t1 (l2 ++ l3) -> z_dead (t_z t2) = false -> never_stuck bcast me i (scans_of i t0) t1 (l2 ++ l3) ->
  y_pubs (z_y (t_z t2)) = y_pubs (z_y (t_z tm)) -> 2000 < t_now t2 - t_now tm ->
  exists f d, scans_of i t2 = d ++ f :: scans_of i t0 /\ sd_req f = q.
Proof. exact scan_in_silence. Qed.
Print Assumptions c131_silence_partial.

(** C132.  A discovery call waits for at least 2 s, however goroutines are scheduled. *)
Theorem c132_never_early : forall bcast me l1 t0 i q t1 l2 t2 f d,
  trun bcast me t_init l1 = Some t0 -> texec bcast me t0 (TDo (ZScan i q)) = Some t1 -> trun bcast me t1 l2 = Some t2 ->
  z_dead (t_z t2) = false -> scans_of i t2 = d ++ f :: scans_of i t0 -> t_now t0 + 2000 <= t_now t2.
Proof. exact scan_never_early. Qed.
Print Assumptions c132_never_early.
(** It waits 2 s more after each announcement it takes, up to 10 s in all: if it took one
    that was published after [tm], it stayed 2 s from then on. *)
Theorem c132_stays : forall bcast me l1 t0 i q t1 l2 tm l3 t2 f d v,
  trun bcast me t_init l1 = Some t0 -> texec bcast me t0 (TDo (ZScan i q)) = Some t1 -> trun bcast me t1 l2 = Some tm -> trun bcast me tm l3 = Some t2 ->
  z_dead (t_z t2) = false -> scans_of i t2 = d ++ f :: scans_of i t0 ->
  In v (sd_store f) -> Z.of_nat (length (y_pubs (z_y (t_z tm)))) <= v ->
  Z.min (t_now t0 + 10000) (t_now tm + 2000) <= t_now t2.
Proof. exact scan_stays. Qed.
Print Assumptions c132_stays.

(** C133.  What is announced while the call listens is in its result, unless the request
    could not be sent, if from then on time passes only while nothing can go on. *)
Theorem c133_heard : forall bcast me l1 t0 i q t1 l2 ta j src b tb l3 t2 m f d,
  trun bcast me t_init l1 = Some t0 -> texec bcast me t0 (TDo (ZScan i q)) = Some t1 -> trun bcast me t1 l2 = Some ta ->
  listens i q ta -> scans_of i ta = scans_of i t0 -> texec bcast me ta (TDo (ZArrive j src b)) = Some tb -> announces src b m ->
  fst (asked_range q) <= fst m <= snd (asked_range q) ->
  trun bcast me tb l3 = Some t2 -> SpecTime.prompt bcast me tb l3 -> z_dead (t_z t2) = false -> scans_of i t2 = d ++ f :: scans_of i t0 ->
  sd_req f = q /\ (tells q (snd m) (sd_result f) \/ sd_failed f = true /\ sd_result f = XErr).
Proof. exact heard_told. Qed.
Print Assumptions c133_heard.

Definition sx_bcast : address := mkAddr 0 0 6 [10; 0; 0; 255; 186; 192] [].
Definition sx_from : address := mkAddr 0 0 6 [10; 0; 0; 9; 186; 192] [].
Definition sx_iam (inst : Z) : list Z :=
  spec_bvlc 11 (spec_npdu (mkNpdu 1 None None 0 false 0 false 0 0) ++ spec_iam (mkIam (mkOid 8 inst) 1476 3 260 addr0)).
Definition sx_who : scan := QWho (mkWho 100 200 false 0).
Definition sx_spawn : list taction := repeat (TDo ZSpawn) 3.
Definition sx_steps (i n : nat) : list taction := repeat (TDo (ZY (YIn (ModelUtsm.VStep i)))) n.
Definition sx_ask : list taction := [TDo (ZY (YTx 0 true)); TDo (ZY (YOffer 0))] ++ sx_steps 0 3.
Definition sx_take (j : nat) : list taction := sx_steps j 6 ++ [TDo (ZDeliver j); TDo (ZY (YIn (ModelUtsm.VRecv 0)))] ++ sx_steps 0 1.
Definition sx_end : list taction := TDo (ZY (YIn (ModelUtsm.VTimeout 0))) :: sx_steps 0 1 ++ [TDo (ZY (YCheck 0)); TDo (ZY (YTake 0))].
Definition sx_iams (n : Z) : taction := TDo (ZArrive 1 sx_from (sx_iam n)).
(** nothing is heard for 2 s; at this very moment two devices answer *)
Definition sx_hang : list taction :=
  sx_ask ++ [TPass 2000; sx_iams 150] ++ sx_steps 1 6 ++ [TDo (ZDeliver 1); TDo (ZArrive 2 sx_from (sx_iam 160))] ++ sx_steps 2 3 ++
  [TDo (ZY (YIn (ModelUtsm.VTimeout 0)))].

(** The full statement of C131, for whatever arrives, is false: *)
Theorem c131_in_time_refuted : exists bcast me l1 t0 i q t1 l2, trun bcast me t_init l1 = Some t0 /\ texec bcast me t0 (TDo (ZScan i q)) = Some t1 /\
  forall d, 0 < d -> exists t2, trun bcast me t1 (l2 ++ [TPass d]) = Some t2 /\ SpecTime.prompt bcast me t1 (l2 ++ [TPass d]) /\ z_dead (t_z t2) = false /\
    t_now t2 - t_now t0 = 2000 + d /\ scans_of i t2 = [].
Proof.
  destruct (shown sx_bcast None sx_spawn (TDo (ZScan 0 sx_who)) sx_hang
    (fun t0 t1 t2 => halting (t_z t2) && (t_now t2 =? 2000 + t_now t0) && match scans_of 0 t2 with [] => true | _ => false end))
    as (t0 & t1 & t2 & R0 & R1 & R2 & P0 & P & LV & C); [vm_compute; reflexivity|].
  apply andb_prop in C. destruct C as [C C3]. apply andb_prop in C. destruct C as [C1 C2]. apply Z.eqb_eq in C2.
  exists sx_bcast, None, sx_spawn, t0, 0%nat, sx_who, t1, sx_hang. split; [exact R0|]. split; [exact R1|]. intros d D.
  destruct (halt_for _ _ _ _ _ d R2 P C1 D) as [R3 P3]. exists (later t2 d). split; [exact R3|]. split; [exact P3|]. split; [exact LV|].
  split; [cbn [later t_now]; lia|]. unfold scans_of in *. cbn [later t_z]. destruct (filter _ _); [reflexivity|discriminate C3].
Qed.
Print Assumptions c131_in_time_refuted.

(** a device answers after 1.999 s, the call returns 2 s later with this device *)
Definition sx_first : list taction := sx_ask ++ [TPass 1999].
Definition sx_rest : list taction := sx_take 1 ++ [TPass 2000] ++ sx_end.
Definition sx_well : list taction := sx_first ++ sx_iams 150 :: sx_rest ++ [TPass 6002].
Definition sx_single (r : sresult) : bool := match r with XDevices [x] => f_deviceid x =? 150 | _ => false end.
Definition sx_good (t0 t1 t2 : timed) : bool :=
  (10000 <? t_now t2 - t_now t0) && match scans_of 0 t2, scans_of 0 t0 with [f], [] => sx_single (sd_result f) && negb (sd_failed f) | _, _ => false end.
(** it meets the hypotheses of C131 *)
Lemma sx_one : one_by_one sx_bcast None t_init (sx_spawn ++ TDo (ZScan 0 sx_who) :: sx_well).
Proof. apply singly_one. vm_compute. reflexivity. Qed.
Example c131_ex : exists t0 t1 t2, trun sx_bcast None t_init sx_spawn = Some t0 /\ texec sx_bcast None t0 (TDo (ZScan 0 sx_who)) = Some t1 /\
  trun sx_bcast None t1 sx_well = Some t2 /\ SpecTime.prompt sx_bcast None t1 sx_well /\ z_dead (t_z t2) = false /\
  one_by_one sx_bcast None t_init (sx_spawn ++ TDo (ZScan 0 sx_who) :: sx_well) /\ never_stuck sx_bcast None 0 (scans_of 0 t0) t1 sx_well /\
  10000 < t_now t2 - t_now t0 /\ exists f x, scans_of 0 t2 = f :: scans_of 0 t0 /\ sd_result f = XDevices [x] /\ f_deviceid x = 150.
Proof.
  destruct (shown sx_bcast None sx_spawn (TDo (ZScan 0 sx_who)) sx_well sx_good) as (t0 & t1 & t2 & R0 & R1 & R2 & P0 & P & LV & C); [vm_compute; reflexivity|].
  apply andb_prop in C. destruct C as [C1 C2]. exists t0, t1, t2. do 5 (split; [assumption|]). split; [exact sx_one|]. split; [exact (one_not_stuck _ _ _ _ _ _ _ _ _ R0 R1 sx_one)|].
  split; [apply Z.ltb_lt; exact C1|]. destruct (scans_of 0 t2) as [|f [|]]; try discriminate C2. destruct (scans_of 0 t0); [|discriminate C2]. apply andb_prop in C2. destruct C2 as [C2 _].
  unfold sx_single in C2. destruct (sd_result f) as [[|x [|]]| |] eqn:E; try discriminate C2. exists f, x. split; [reflexivity|]. split; [exact E|apply Z.eqb_eq; exact C2].
Qed.
(** and, 2.001 s after the answer, those of the silence *)
Definition sx_mid : list taction := sx_first ++ [sx_iams 150].
Definition sx_at (l : list taction) (t1 : timed) (chk : timed -> bool) : bool := match trun sx_bcast None t1 l with Some tm => chk tm | None => false end.
Lemma sx_at_some : forall l t1 chk, sx_at l t1 chk = true -> exists tm, trun sx_bcast None t1 l = Some tm /\ chk tm = true.
Proof. intros l t1 chk H. unfold sx_at in H. destruct (trun sx_bcast None t1 l) as [tm|]; [eauto|discriminate]. Qed.
Example c131_silence_ex : exists t0 t1 tm t2, trun sx_bcast None t_init sx_spawn = Some t0 /\ texec sx_bcast None t0 (TDo (ZScan 0 sx_who)) = Some t1 /\
  trun sx_bcast None t1 sx_mid = Some tm /\ trun sx_bcast None tm (sx_rest ++ [TPass 1]) = Some t2 /\ SpecTime.prompt sx_bcast None t1 (sx_mid ++ sx_rest ++ [TPass 1]) /\
  z_dead (t_z t2) = false /\ never_stuck sx_bcast None 0 (scans_of 0 t0) t1 (sx_mid ++ sx_rest ++ [TPass 1]) /\
  y_pubs (z_y (t_z t2)) = y_pubs (z_y (t_z tm)) /\ length (y_pubs (z_y (t_z tm))) = 1%nat /\ t_now t2 - t_now tm = 2001.
Proof.
  destruct (shown sx_bcast None sx_spawn (TDo (ZScan 0 sx_who)) (sx_mid ++ sx_rest ++ [TPass 1])
    (fun t0 t1 t2 => sx_at sx_mid t1 (fun tm => Nat.eqb (length (y_pubs (z_y (t_z t2)))) 1 && Nat.eqb (length (y_pubs (z_y (t_z tm)))) 1 && (t_now t2 - t_now tm =? 2001))))
    as (t0 & t1 & t2 & R0 & R1 & R2 & P0 & P & LV & C); [vm_compute; reflexivity|].
  destruct (sx_at_some _ _ _ C) as (tm & RM & C'). apply andb_prop in C'. destruct C' as [C' C3]. apply andb_prop in C'. destruct C' as [C1 C2].
  apply Nat.eqb_eq in C1, C2. apply Z.eqb_eq in C3. rewrite trun_cat, RM in R2.
  exists t0, t1, tm, t2. do 6 (split; [assumption|]). split; [apply (one_not_stuck _ _ _ _ _ _ _ _ _ R0 R1); apply singly_one; vm_compute; reflexivity|]. split; [|auto].
  destruct (pubs_prefix _ _ _ _ _ R2) as (e & K). rewrite K in C1 |- *. rewrite app_length, C2 in C1. destruct e; [apply app_nil_r|discriminate C1].
Qed.
(** C132: without an answer the call takes just 2 s, and in the run above it stays just 2 s
    after the answer *)
Example c132_ex : exists t0 t1 t2 f, trun sx_bcast None t_init sx_spawn = Some t0 /\ texec sx_bcast None t0 (TDo (ZScan 0 sx_who)) = Some t1 /\
  trun sx_bcast None t1 (sx_ask ++ [TPass 2000] ++ sx_end) = Some t2 /\ z_dead (t_z t2) = false /\ scans_of 0 t2 = [] ++ f :: scans_of 0 t0 /\ sd_result f = XDevices [] /\ t_now t2 = t_now t0 + 2000.
Proof.
  destruct (shown sx_bcast None sx_spawn (TDo (ZScan 0 sx_who)) (sx_ask ++ [TPass 2000] ++ sx_end)
    (fun t0 t1 t2 => (t_now t2 =? t_now t0 + 2000) && match scans_of 0 t2, scans_of 0 t0 with [f], [] => match sd_result f with XDevices [] => true | _ => false end | _, _ => false end))
    as (t0 & t1 & t2 & R0 & R1 & R2 & P0 & P & LV & C); [vm_compute; reflexivity|].
  apply andb_prop in C. destruct C as [C1 C2]. apply Z.eqb_eq in C1. destruct (scans_of 0 t2) as [|f [|]] eqn:E2; try discriminate C2. destruct (scans_of 0 t0) eqn:E0; [|discriminate C2].
  exists t0, t1, t2, f. do 4 (split; [assumption|]). split; [rewrite E2, E0; reflexivity|]. split; [|exact C1]. destruct (sd_result f) as [[|]| |]; try discriminate C2. reflexivity.
Qed.
Example c132_stays_ex : exists t0 t1 tm t2 f, trun sx_bcast None t_init sx_spawn = Some t0 /\ texec sx_bcast None t0 (TDo (ZScan 0 sx_who)) = Some t1 /\
  trun sx_bcast None t1 sx_first = Some tm /\ trun sx_bcast None tm (sx_iams 150 :: sx_rest) = Some t2 /\ z_dead (t_z t2) = false /\ scans_of 0 t2 = [] ++ f :: scans_of 0 t0 /\
  In 0 (sd_store f) /\ length (y_pubs (z_y (t_z tm))) = 0%nat /\ t_now t2 = t_now tm + 2000.
Proof.
  destruct (shown sx_bcast None sx_spawn (TDo (ZScan 0 sx_who)) (sx_first ++ sx_iams 150 :: sx_rest)
    (fun t0 t1 t2 => sx_at sx_first t1 (fun tm => Nat.eqb (length (y_pubs (z_y (t_z tm)))) 0 && (t_now t2 =? t_now tm + 2000)) &&
                     match scans_of 0 t2, scans_of 0 t0 with [f], [] => match sd_store f with [0] => true | _ => false end | _, _ => false end))
    as (t0 & t1 & t2 & R0 & R1 & R2 & P0 & P & LV & C); [vm_compute; reflexivity|].
  apply andb_prop in C. destruct C as [C C3]. destruct (sx_at_some _ _ _ C) as (tm & RM & C'). apply andb_prop in C'. destruct C' as [C1 C2].
  apply Nat.eqb_eq in C1. apply Z.eqb_eq in C2. rewrite trun_cat, RM in R2. destruct (scans_of 0 t2) as [|f [|]] eqn:E2; try discriminate C3. destruct (scans_of 0 t0) eqn:E0; [|discriminate C3].
  exists t0, t1, tm, t2, f. do 5 (split; [assumption|]). split; [rewrite E2, E0; reflexivity|]. split; [|auto]. destruct (sd_store f) as [|[| |] [|]]; try discriminate C3. left. reflexivity.
Qed.
(** C133: the run above again *)
Definition sx_m : Z * pub := hd (0, PubNets []) (published (fun _ => true) [(sx_from, sx_iam 150)]).
Example c133_ex : exists t0 t1 ta tb t2, trun sx_bcast None t_init sx_spawn = Some t0 /\ texec sx_bcast None t0 (TDo (ZScan 0 sx_who)) = Some t1 /\
  trun sx_bcast None t1 sx_first = Some ta /\ listens 0 sx_who ta /\ scans_of 0 ta = scans_of 0 t0 /\ texec sx_bcast None ta (sx_iams 150) = Some tb /\ announces sx_from (sx_iam 150) sx_m /\
  fst (asked_range sx_who) <= fst sx_m <= snd (asked_range sx_who) /\ trun sx_bcast None tb (sx_rest ++ [TPass 6002]) = Some t2 /\ SpecTime.prompt sx_bcast None tb (sx_rest ++ [TPass 6002]) /\
  z_dead (t_z t2) = false /\ exists f, scans_of 0 t2 = [] ++ f :: scans_of 0 t0 /\ sd_failed f = false /\ (forall r, tells sx_who (snd sx_m) r -> exists ds x, r = XDevices ds /\ In x ds /\ f_deviceid x = 150).
Proof.
  destruct (shown sx_bcast None sx_spawn (TDo (ZScan 0 sx_who)) sx_well
    (fun t0 t1 t2 => sx_good t0 t1 t2 && sx_at sx_first t1 (fun ta => match scans_of 0 ta with [] => true | _ => false end)))
    as (t0 & t1 & t2 & R0 & R1 & R2 & P0 & P & LV & C); [vm_compute; reflexivity|].
  apply andb_prop in C. destruct C as [C C4]. unfold sx_good in C. apply andb_prop in C. destruct C as [C1 C2]. destruct (sx_at_some _ _ _ C4) as (ta & RA & C6).
  unfold sx_well in R2. rewrite trun_cat, RA in R2. cbn [trun] in R2. destruct (texec sx_bcast None ta (sx_iams 150)) as [tb|] eqn:EA; [|discriminate R2].
  destruct (scans_of 0 t2) as [|f [|]] eqn:E2; try discriminate C2. destruct (scans_of 0 t0) eqn:E0; [|discriminate C2]. destruct (scans_of 0 ta) eqn:E1; [|discriminate C6].
  apply andb_prop in C2. destruct C2 as [_ C2]. exists t0, t1, ta, tb, t2. do 3 (split; [assumption|]). split.
  { assert (K : option_map (fun t => (nth_error (y_ph (z_y (t_z t))) 0, nth_error (ModelUtsm.u_thr (y_u (z_y (t_z t)))) 0, t_now t, t_due t 0%nat))
      (trun sx_bcast None t_init (sx_spawn ++ TDo (ZScan 0 sx_who) :: sx_first)) = Some (Some (YSub sx_who (TOffer false false) false), Some (ModelUtsm.SubWait 0 []), 1999, 2000)) by (vm_compute; reflexivity).
    rewrite trun_cat, R0 in K. cbn [trun] in K. rewrite R1, RA in K. cbn [option_map] in K. injection K as K1 K2 K3 K4.
    unfold listens. do 4 eexists. split; [exact K1|]. right. split; [exact K2|]. lia. }
  split; [rewrite E0, E1; reflexivity|]. split; [exact EA|]. split; [vm_compute; left; reflexivity|]. split; [vm_compute; split; discriminate|]. split; [exact R2|]. split; [|split; [exact LV|]].
  { pose proof (prompt_split _ _ _ _ _ _ RA P) as PA. cbn [SpecTime.prompt] in PA. exact (proj2 PA _ EA). }
  exists f. split; [rewrite E2, E0; reflexivity|]. split; [apply negb_true_iff; exact C2|].
  intros r T. exact T.
Qed.
