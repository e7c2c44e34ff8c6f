(** * C148: a scan of package network from its Who-Is to its last answer

    [full_scan … i wh rest t l t' f w s fs] (SpecFullScan): in the steps [l] goroutine [i]
    asks with the options [wh] who is there, gets [w], and performs [rest w] as far as
    [s], without tarrying in between.  All other goroutines do whatever they like. *)
Require Import List ZArith Bool Lia.
From Verif Require Import ModelClient ModelNet ModelSystem ModelScan ModelWhole ModelTime ModelScript ModelNetScript ModelFullScan.
From Verif Require Import SpecSystem SpecWhole SpecFair SpecTime SpecTimeScan SpecScript SpecNetScript SpecFullScan.
From Verif Require ModelTsm ModelUtsm.
From Verif Require Import ProofsSystem ProofsFairScan ProofsTime ProofsTimeScan ProofsTimeHear ProofsTimeCheck ProofsTimeOne ProofsScript ProofsNetScript ProofsFullScan PropTimeScan PropNetScript.
Import ListNotations.
Open Scope Z_scope.

(** At every moment of NetworkDiscover after its Who-Is has returned, 2 s at least and 10 s
    and 24 s for each device that was found have passed at most — if announcements come one
    at a time. *)
Theorem c148_discover_partial : forall bcast me i wh l0 t0 l t' f w s fs,
  trun bcast me t_init l0 = Some t0 -> full_scan bcast me i wh NetworkDiscover_rest t0 l t' f w s fs ->
  SpecTime.prompt bcast me t0 l -> one_by_one bcast me t_init (l0 ++ l) -> z_dead (t_z t') = false ->
  2000 <= t_now t' - t_now t0 <= 10000 + 24000 * devices w.
Proof. intros bcast me i wh l0 t0 l t' f w s fs R0 FS PR O. exact (full_discover_time _ _ _ _ _ _ _ _ _ _ _ _ R0 FS PR (one_served _ _ _ _ _ _ R0 O)). Qed.
Print Assumptions c148_discover_partial.
(** It is enough that discovery does not get stuck while the Who-Is waits (C131). *)
Theorem c148_served_partial : forall bcast me i wh l0 t0 l t' f w s fs,
  trun bcast me t_init l0 = Some t0 -> full_scan bcast me i wh NetworkDiscover_rest t0 l t' f w s fs ->
  SpecTime.prompt bcast me t0 l -> never_stuck bcast me i (scans_of i t0) t0 l -> z_dead (t_z t') = false ->
  2000 <= t_now t' - t_now t0 <= 10000 + 24000 * devices w.
Proof. exact full_discover_time. Qed.
Print Assumptions c148_served_partial.
(** the same for DeviceDiscover *)
Theorem c148_devices_partial : forall bcast me i wh d l0 t0 l t' f w s fs,
  trun bcast me t_init l0 = Some t0 -> full_scan bcast me i wh (DeviceDiscover_rest d) t0 l t' f w s fs ->
  SpecTime.prompt bcast me t0 l -> never_stuck bcast me i (scans_of i t0) t0 l -> z_dead (t_z t') = false ->
  2000 <= t_now t' - t_now t0 <= 10000 + 24000 * devices w.
Proof. exact full_devices_time. Qed.
Print Assumptions c148_devices_partial.
(** The list of the objects of a device: 22 s, and 6 s for each of them *)
Theorem c148_objects_partial : forall bcast me i d id l0 t0 l t' f w os d' fs,
  trun bcast me t_init l0 = Some t0 -> full_scan bcast me i (objects_whois id) (DeviceObjects_rest d id) t0 l t' f w (SEnd (COk (os, d'))) fs ->
  SpecTime.prompt bcast me t0 l -> never_stuck bcast me i (scans_of i t0) t0 l -> z_dead (t_z t') = false ->
  2000 <= t_now t' - t_now t0 <= 10000 + 6000 * (2 + Z.of_nat (length os)).
Proof. intros bcast me i d id. exact (full_objects_time bcast me i (objects_whois id) d id). Qed.
Print Assumptions c148_objects_partial.
(** and further 12 s for each point *)
Theorem c148_points_partial : forall bcast me i d id l0 t0 l t' f w ps fs,
  trun bcast me t_init l0 = Some t0 -> full_scan bcast me i (objects_whois id) (GetDevicePoints_rest d id) t0 l t' f w (SEnd (COk ps)) fs ->
  SpecTime.prompt bcast me t0 l -> never_stuck bcast me i (scans_of i t0) t0 l -> z_dead (t_z t') = false ->
  exists envs os d', arrived_in (steps (l0 ++ l)) envs fs /\ snd (DeviceObjects 0 envs me d id (Some w)) = COk (os, d') /\
    length ps = length (filter (fun o => negb (oid_type o =? 8)) os) /\
    2000 <= t_now t' - t_now t0 <= 10000 + 6000 * (2 + Z.of_nat (length os) + 2 * Z.of_nat (length ps)).
Proof. intros bcast me i d id. exact (full_points_time bcast me i (objects_whois id) d id). Qed.
Print Assumptions c148_points_partial.
(** What NetworkDiscover returns: what it returns on a client of its own, for what has
    arrived; no device twice, and only devices of the range that have announced themselves. *)
Theorem c148_listed : forall bcast me i wh l0 t0 l t' f w r fs,
  trun bcast me t_init l0 = Some t0 -> full_scan bcast me i wh NetworkDiscover_rest t0 l t' f w (SEnd r) fs -> z_dead (t_z t') = false ->
  exists envs, NetworkDiscover envs me w = (flat_map fi_sent fs, r) /\ arrived_in (steps (l0 ++ l)) envs fs /\
    (no_reuse (steps (l0 ++ l)) -> own_in (steps (l0 ++ l)) envs fs) /\
    forall bs, r = COk bs -> NoDup (map bd_deviceid bs) /\
      forall b, In b bs -> exists ia src by_ th, In (ZArrive th src by_) (steps (l0 ++ l)) /\ announces src by_ (oid_inst (i_id ia), PubIAm ia) /\
        SpecClient.requested_low wh <= oid_inst (i_id ia) <= SpecClient.requested_high wh /\ bd_deviceid b = oid_inst (i_id ia).
Proof. exact full_listed. Qed.
Print Assumptions c148_listed.
(** A device of the range that announces itself while the call listens is in the list. *)
Theorem c148_heard : forall bcast me i wh l0 t0 l t' f w bs fs l1 ta j src b l2 ia,
  trun bcast me t_init l0 = Some t0 -> full_scan bcast me i wh NetworkDiscover_rest t0 l t' f w (SEnd (COk bs)) fs ->
  SpecTime.prompt bcast me t0 l -> z_dead (t_z t') = false ->
  l = TDo (ZScan i (QWho wh)) :: l1 ++ TDo (ZArrive j src b) :: l2 -> trun bcast me t0 (TDo (ZScan i (QWho wh)) :: l1) = Some ta ->
  listens i (QWho wh) ta -> scans_of i ta = scans_of i t0 -> announces src b (oid_inst (i_id ia), PubIAm ia) ->
  SpecClient.requested_low wh <= oid_inst (i_id ia) <= SpecClient.requested_high wh ->
  In (oid_inst (i_id ia)) (map bd_deviceid bs).
Proof. exact full_heard. Qed.
Print Assumptions c148_heard.

(** The full statement, for whatever arrives, is false: two devices answer in the moment in
    which the wait ends, and the scan does not come to anything. *)
Theorem c148_in_time_refuted : exists bcast me l0 t0 i wh l, trun bcast me t_init l0 = Some t0 /\
  forall d, 0 < d -> exists t2, trun bcast me t0 (TDo (ZScan i (QWho wh)) :: l ++ [TPass d]) = Some t2 /\
    SpecTime.prompt bcast me t0 (TDo (ZScan i (QWho wh)) :: l ++ [TPass d]) /\ z_dead (t_z t2) = false /\ t_now t2 - t_now t0 = 2000 + d /\
    ~ exists la lb t' f w s fs, TDo (ZScan i (QWho wh)) :: l ++ [TPass d] = la ++ lb /\ full_scan bcast me i wh NetworkDiscover_rest t0 la t' f w s fs.
Proof.
  destruct (shown sx_bcast None sx_spawn (TDo (ZScan 0 sx_who)) sx_hang
    (fun t0 t1 t2 => halting (t_z t2) && (t_now t2 =? 2000 + t_now t0) && match scans_of 0 t2 with [] => true | _ => false end && match scans_of 0 t0 with [] => true | _ => false end))
    as (t0 & t1 & t2 & R0 & R1 & R2 & P0 & P & LV & C); [vm_compute; reflexivity|].
  apply andb_prop in C. destruct C as [C C4]. apply andb_prop in C. destruct C as [C C3]. apply andb_prop in C. destruct C as [C1 C2]. apply Z.eqb_eq in C2.
  exists sx_bcast, None, sx_spawn, t0, 0%nat, (mkWho 100 200 false 0), sx_hang. split; [exact R0|]. intros d D. fold sx_who.
  destruct (halt_for _ _ _ _ _ d R2 P C1 D) as [R3 P3]. exists (later t2 d).
  assert (RT : trun sx_bcast None t0 (TDo (ZScan 0 sx_who) :: sx_hang ++ [TPass d]) = Some (later t2 d)) by (cbn [trun]; rewrite R1; exact R3).
  split; [exact RT|]. split; [cbn [SpecTime.prompt]; split; [discriminate|]; intros t1' E'; rewrite R1 in E'; injection E' as <-; exact P3|]. split; [exact LV|].
  split; [cbn [later t_now]; lia|]. intros (la & lb & t' & f & w & s & fs & EQ & FS). rewrite EQ in RT. apply (full_needs _ _ _ _ _ _ _ _ _ _ _ _ _ _ _ FS RT).
  destruct (scans_of 0 t0) eqn:E0; [|discriminate C4]. unfold scans_of in *. cbn [later t_z]. destruct (filter _ (y_done (z_y (t_z t2)))); [reflexivity|discriminate C3].
Qed.
Print Assumptions c148_in_time_refuted.

(** Goroutine 0 asks for the devices 100 to 200; device 150 announces itself after 1.999 s,
    2 s later the Who-Is returns.  Then device 150 tells its name after 0.1 s and nothing
    else, 19.099 s in all. *)
Definition fx_name (id : Z) : list Z := [129; 10; 0; 22; 1; 0; 48; id; 12; 12; 2; 0; 0; 150; 25; 77; 62; 115; 0; 65; 66; 63].
Definition fx_asks : list taction :=
  sx_first ++ sx_iams 150 :: sx_take 1 ++ [TPass 2000; TDo (ZY (YIn (ModelUtsm.VTimeout 0)))] ++ sx_steps 0 1 ++ [TDo (ZY (YCheck 0))].
Definition fx_rest : list (option taction) :=
  None :: map Some (nx_sent 0 None ++ [TPass 100] ++ nx_answer 2 0 9 (fx_name 1) ++ nx_end 0) ++ nx_silent 0 ++ nx_silent 0 ++ nx_silent 0.
Definition fx_bs (s : script (list bdevice)) : list bdevice := match s with SEnd (COk bs) => bs | _ => [] end.
Lemma fx_runs : exists t0 lb t' f w b fs, let l := TDo (ZScan 0 sx_who) :: fx_asks ++ TDo (ZY (YTake 0)) :: lb in trun sx_bcast None t_init sx_spawn = Some t0 /\
  full_scan sx_bcast None 0 (mkWho 100 200 false 0) NetworkDiscover_rest t0 l t' f w (SEnd (COk [b])) fs /\
  SpecTime.prompt sx_bcast None t0 l /\ one_by_one sx_bcast None t_init (sx_spawn ++ l) /\ z_dead (t_z t') = false /\
  bd_deviceid b = 150 /\ bd_name b = [65; 66] /\ devices w = 1 /\ length fs = 4%nat /\ t_now t' - t_now t0 = 19099.
Proof.
  destruct (scanned_shown _ sx_bcast None 0 sx_spawn (mkWho 100 200 false 0) fx_asks (TDo (ZY (YTake 0))) NetworkDiscover_rest fx_rest
    (fun t0 t' f w s fs => (t_now t' - t_now t0 =? 19099) && (devices w =? 1) && Nat.eqb (length fs) 4 &&
       match s with SEnd (COk [b]) => (bd_deviceid b =? 150) && (if list_eq_dec Z.eq_dec (bd_name b) [65; 66] then true else false) | _ => false end))
    as (t0 & lb & t' & f & w & s & fs & R0 & FS & PR & O & LV & C); [vm_compute; reflexivity|].
  apply andb_prop in C. destruct C as [C C4]. apply andb_prop in C. destruct C as [C C3]. apply andb_prop in C. destruct C as [C1 C2]. apply Z.eqb_eq in C1, C2. apply Nat.eqb_eq in C3.
  destruct s as [r|]; [|discriminate C4]. destruct r as [m| | |]; try discriminate C4. destruct m as [|b [|? ?]]; try discriminate C4. apply andb_prop in C4. destruct C4 as [C4 C5]. apply Z.eqb_eq in C4.
  exists t0, lb, t', f, w, b, fs. cbv zeta. do 5 (split; [assumption|]). split; [exact C4|]. split; [destruct (list_eq_dec Z.eq_dec (bd_name b) [65; 66]); [assumption|discriminate C5]|]. auto.
Qed.
(** it meets the hypotheses *)
Example c148_ex : exists l t0 t' f w bs fs, trun sx_bcast None t_init sx_spawn = Some t0 /\ full_scan sx_bcast None 0 (mkWho 100 200 false 0) NetworkDiscover_rest t0 l t' f w (SEnd (COk bs)) fs /\
  SpecTime.prompt sx_bcast None t0 l /\ one_by_one sx_bcast None t_init (sx_spawn ++ l) /\ never_stuck sx_bcast None 0 (scans_of 0 t0) t0 l /\ z_dead (t_z t') = false /\
  length bs = 1%nat /\ length fs = 4%nat /\ t_now t' - t_now t0 = 19099.
Proof.
  destruct fx_runs as (t0 & lb & t' & f & w & b & fs & H1 & H2 & H3 & H4 & H5 & H6 & H7 & H8 & H9 & H10). exists (TDo (ZScan 0 sx_who) :: fx_asks ++ TDo (ZY (YTake 0)) :: lb), t0, t', f, w, [b], fs.
  do 4 (split; [assumption|]). split; [exact (one_served _ _ _ _ _ _ H1 H4)|]. auto.
Qed.
(** and those of [c148_heard] *)
Definition fx_ia : iam := match sx_m with (_, PubIAm ia) => ia | _ => mkIam (mkOid 0 0) 0 0 0 addr0 end.
Example c148_heard_ex : exists l t0 t' f w b fs l1 ta j src by_ l2, trun sx_bcast None t_init sx_spawn = Some t0 /\
  full_scan sx_bcast None 0 (mkWho 100 200 false 0) NetworkDiscover_rest t0 l t' f w (SEnd (COk [b])) fs /\ SpecTime.prompt sx_bcast None t0 l /\ z_dead (t_z t') = false /\
  l = TDo (ZScan 0 sx_who) :: l1 ++ TDo (ZArrive j src by_) :: l2 /\ trun sx_bcast None t0 (TDo (ZScan 0 sx_who) :: l1) = Some ta /\ listens 0 sx_who ta /\ scans_of 0 ta = scans_of 0 t0 /\
  announces src by_ (oid_inst (i_id fx_ia), PubIAm fx_ia) /\ SpecClient.requested_low (mkWho 100 200 false 0) <= oid_inst (i_id fx_ia) <= SpecClient.requested_high (mkWho 100 200 false 0) /\ bd_deviceid b = 150.
Proof.
  destruct fx_runs as (t0 & lb & t' & f & w & b & fs & H1 & H2 & H3 & H4 & H5 & H6 & _).
  assert (K : option_map (fun t => (nth_error (y_ph (z_y (t_z t))) 0, nth_error (ModelUtsm.u_thr (y_u (z_y (t_z t)))) 0, t_now t, t_due t 0%nat, scans_of 0 t))
      (trun sx_bcast None t_init (sx_spawn ++ TDo (ZScan 0 sx_who) :: sx_first)) = Some (Some (YSub sx_who (TOffer false false) false), Some (ModelUtsm.SubWait 0 []), 1999, 2000, [])) by (vm_compute; reflexivity).
  assert (K0 : option_map (scans_of 0) (trun sx_bcast None t_init sx_spawn) = Some []) by (vm_compute; reflexivity). rewrite H1 in K0. cbn [option_map] in K0. injection K0 as K0.
  rewrite trun_cat, H1 in K. destruct (trun sx_bcast None t0 (TDo (ZScan 0 sx_who) :: sx_first)) as [ta|] eqn:RA; [|discriminate K]. cbn [option_map] in K. injection K as K1 K2 K3 K4 K5.
  exists (TDo (ZScan 0 sx_who) :: fx_asks ++ TDo (ZY (YTake 0)) :: lb), t0, t', f, w, b, fs, sx_first, ta. do 4 eexists.
  do 4 (split; [assumption|]). split; [unfold fx_asks; rewrite <- app_assoc; reflexivity|]. split; [exact RA|]. split; [|split; [congruence|]].
  - unfold listens. do 4 eexists. split; [exact K1|]. right. split; [exact K2|]. lia.
  - split; [vm_compute; left; reflexivity|]. split; [vm_compute; split; discriminate|exact H6].
Qed.
(** The points of device 150: goroutine 0 asks for the device, then for its list of
    objects, which is there after 0.1 s; the second point tells no unit. *)
Definition fx_list : list (option taction) := None :: map Some (nx_sent 0 None ++ [TPass 100] ++ nx_answer 2 0 9 (nx_list 1) ++ nx_end 0).
Definition fx_points : list (option taction) :=
  fx_list ++
  None :: map Some (nx_sent 0 None ++ nx_answer 2 0 9 (nx_name 2) ++ nx_end 0) ++
  nx_silent 0 ++
  None :: map Some (nx_sent 0 None ++ nx_answer 2 0 9 (nx_name 4) ++ nx_end 0).
Example c148_points_ex : exists l t0 t' f w ps fs, trun sx_bcast None t_init sx_spawn = Some t0 /\
  full_scan sx_bcast None 0 (objects_whois 150) (GetDevicePoints_rest nx_device 150) t0 l t' f w (SEnd (COk ps)) fs /\
  SpecTime.prompt sx_bcast None t0 l /\ never_stuck sx_bcast None 0 (scans_of 0 t0) t0 l /\ z_dead (t_z t') = false /\ length ps = 2%nat /\ t_now t' - t_now t0 = 9099.
Proof.
  destruct (scanned_shown _ sx_bcast None 0 sx_spawn (objects_whois 150) fx_asks (TDo (ZY (YTake 0))) (GetDevicePoints_rest nx_device 150) fx_points
    (fun t0 t' f w s fs => (t_now t' - t_now t0 =? 9099) && match s with SEnd (COk ps) => Nat.eqb (length ps) 2 | _ => false end))
    as (t0 & lb & t' & f & w & s & fs & R0 & FS & PR & O & LV & C); [vm_compute; reflexivity|].
  apply andb_prop in C. destruct C as [C1 C2]. apply Z.eqb_eq in C1. destruct s as [r|]; [|discriminate C2]. destruct r as [ps| | |]; try discriminate C2. apply Nat.eqb_eq in C2.
  do 2 eexists. exists t', f, w, ps, fs. split; [exact R0|]. split; [exact FS|]. split; [exact PR|]. split; [exact (one_served _ _ _ _ _ _ R0 O)|]. auto.
Qed.
Example c148_objects_ex : exists l t0 t' f w os d' fs, trun sx_bcast None t_init sx_spawn = Some t0 /\
  full_scan sx_bcast None 0 (objects_whois 150) (DeviceObjects_rest nx_device 150) t0 l t' f w (SEnd (COk (os, d'))) fs /\
  SpecTime.prompt sx_bcast None t0 l /\ never_stuck sx_bcast None 0 (scans_of 0 t0) t0 l /\ z_dead (t_z t') = false /\ length os = 3%nat /\ t_now t' - t_now t0 = 4099.
Proof.
  destruct (scanned_shown _ sx_bcast None 0 sx_spawn (objects_whois 150) fx_asks (TDo (ZY (YTake 0))) (DeviceObjects_rest nx_device 150) fx_list
    (fun t0 t' f w s fs => (t_now t' - t_now t0 =? 4099) && match s with SEnd (COk (os, _)) => Nat.eqb (length os) 3 | _ => false end))
    as (t0 & lb & t' & f & w & s & fs & R0 & FS & PR & O & LV & C); [vm_compute; reflexivity|].
  apply andb_prop in C. destruct C as [C1 C2]. apply Z.eqb_eq in C1. destruct s as [r|]; [|discriminate C2]. destruct r as [[os d']| | |]; try discriminate C2. apply Nat.eqb_eq in C2.
  do 2 eexists. exists t', f, w, os, d', fs. split; [exact R0|]. split; [exact FS|]. split; [exact PR|]. split; [exact (one_served _ _ _ _ _ _ R0 O)|]. auto.
Qed.

(** The Who-Is of DeviceObjects and GetDevicePoints finds the device they are called for
    only … *)
Theorem c148_one_device_partial : forall A bcast me i id (rest : cerr + list found -> script A) l0 t0 l t' f fd s fs,
  0 < id -> trun bcast me t_init l0 = Some t0 ->
  full_scan bcast me i (objects_whois id) rest t0 l t' f (inr fd) s fs -> z_dead (t_z t') = false ->
  fd = [] \/ exists x, fd = [x] /\ f_deviceid x = id.
Proof. exact one_device. Qed.
Print Assumptions c148_one_device_partial.
Example c148_one_device_ex : exists l t0 t' f x s fs, 0 < 150 /\ trun sx_bcast None t_init sx_spawn = Some t0 /\
  full_scan sx_bcast None 0 (objects_whois 150) (DeviceObjects_rest nx_device 150) t0 l t' f (inr [x]) s fs /\ z_dead (t_z t') = false.
Proof.
  destruct (scanned_shown _ sx_bcast None 0 sx_spawn (objects_whois 150) fx_asks (TDo (ZY (YTake 0))) (DeviceObjects_rest nx_device 150) fx_list
    (fun t0 t' f w s fs => match w with inr [x] => true | _ => false end))
    as (t0 & lb & t' & f & w & s & fs & R0 & FS & PR & O & LV & C); [vm_compute; reflexivity|].
  destruct w as [|[|x [|]]]; try discriminate C. do 2 eexists. exists t', f, x, s, fs. split; [reflexivity|]. split; [exact R0|]. split; [exact FS|exact LV].
Qed.
(** … unless this is device 0: then it asks for all, and device 150 is found. *)
Theorem c148_one_device_refuted : exists bcast me i id l0 t0 l t' f x d r fs, 0 <= id /\ trun bcast me t_init l0 = Some t0 /\
  full_scan bcast me i (objects_whois id) (DeviceObjects_rest d id) t0 l t' f (inr [x]) (SEnd r) fs /\ z_dead (t_z t') = false /\ f_deviceid x <> id.
Proof.
  destruct (scanned_shown _ sx_bcast None 0 sx_spawn (objects_whois 0) fx_asks (TDo (ZY (YTake 0))) (DeviceObjects_rest nx_device 0) fx_list
    (fun t0 t' f w s fs => match w, s with inr [x], SEnd _ => f_deviceid x =? 150 | _, _ => false end))
    as (t0 & lb & t' & f & w & s & fs & R0 & FS & PR & O & LV & C); [vm_compute; reflexivity|].
  destruct w as [|[|x [|]]]; try discriminate C. destruct s as [r|]; [|discriminate C]. apply Z.eqb_eq in C.
  do 6 eexists. eexists. exists t', f, x, nx_device, r, fs. split; [|split; [exact R0|split; [exact FS|split; [exact LV|rewrite C; discriminate]]]]. reflexivity || discriminate.
Qed.
Print Assumptions c148_one_device_refuted.
