(** * C143, C144: the scans of package network on a client that others use as well

    [performs … i t s l t' s' fs] (SpecScript): in the steps [l] goroutine [i], whose
    function has [s] before it, comes to [s']; [fs] are the requests that returned to it
    meanwhile.  All other goroutines of the client do whatever they like.  The scans begin
    with a Who-Is; [found], [w] is what it found, the scripts are the rest. *)
Require Import List ZArith Bool Lia.
From Verif Require Import ModelClient ModelNet ModelSystem ModelScan ModelWhole ModelTime ModelScript ModelNetScript SpecSystem SpecWhole SpecFair SpecTime SpecScript SpecNetScript.
From Verif Require ModelTsm.
From Verif Require Import ProofsSystem ProofsTimeCheck ProofsScript ProofsNetScript.
Import ListNotations.
Open Scope Z_scope.

(** C143.  Whatever others do with the client, a scan sends and returns what it does on a
    client of its own, for some answers that have arrived; for its own answers, if the
    pool hands out new objects only. *)
Theorem c143_discover_partial : forall bcast me l0 t0 i l t' found r fs,
  trun bcast me t_init l0 = Some t0 -> z_free (t_z t0) i = true ->
  performs bcast me i t0 (net_discover_script found) l t' (SEnd r) fs ->
  exists envs, NetworkDiscover envs me (inr found) = (flat_map fi_sent fs, r) /\ arrived_in (steps (l0 ++ l)) envs fs /\
    (no_reuse (steps (l0 ++ l)) -> own_in (steps (l0 ++ l)) envs fs).
Proof. exact net_discover_shared. Qed.
Print Assumptions c143_discover_partial.
Theorem c143_devices_partial : forall bcast me l0 t0 i l t' d found r fs,
  trun bcast me t_init l0 = Some t0 -> z_free (t_z t0) i = true ->
  performs bcast me i t0 (discover_script [] d found) l t' (SEnd r) fs ->
  exists envs, DeviceDiscover envs me d (inr found) = (flat_map fi_sent fs, r) /\ arrived_in (steps (l0 ++ l)) envs fs /\
    (no_reuse (steps (l0 ++ l)) -> own_in (steps (l0 ++ l)) envs fs).
Proof. exact discover_shared. Qed.
Print Assumptions c143_devices_partial.
Theorem c143_objects_partial : forall bcast me l0 t0 i l t' d id w r fs,
  trun bcast me t_init l0 = Some t0 -> z_free (t_z t0) i = true ->
  performs bcast me i t0 (DeviceObjects_script d id w) l t' (SEnd r) fs ->
  exists envs, DeviceObjects 0 envs me d id w = (flat_map fi_sent fs, r) /\ arrived_in (steps (l0 ++ l)) envs fs /\
    (no_reuse (steps (l0 ++ l)) -> own_in (steps (l0 ++ l)) envs fs).
Proof. exact device_objects_shared. Qed.
Print Assumptions c143_objects_partial.
(** [k0] is the number of requests for the list of objects *)
Theorem c143_points_partial : forall bcast me l0 t0 i l t' d id w r fs,
  trun bcast me t_init l0 = Some t0 -> z_free (t_z t0) i = true ->
  performs bcast me i t0 (GetDevicePoints_script d id w) l t' (SEnd r) fs ->
  exists envs k0, GetDevicePoints envs (fun k => envs (k0 + k)%nat) me d id w = (flat_map fi_sent fs, r) /\ arrived_in (steps (l0 ++ l)) envs fs /\
    (no_reuse (steps (l0 ++ l)) -> own_in (steps (l0 ++ l)) envs fs).
Proof. exact points_shared. Qed.
Print Assumptions c143_points_partial.

Definition nx_bcast : address := mkAddr 0 0 6 [10; 0; 0; 255; 186; 192] [].
Definition nx_src (n : Z) : address := mkAddr 0 0 6 [10; 0; 0; n; 186; 192] [].
Definition nx_found (n : Z) : found := mkFound (mkOid 8 n) n (nx_src n) 1476 3 15 0 0 (Some ([10; 0; 0; n], 47808)).
(** the device that NetworkDiscover asks *)
Definition nx_dev2 : device := mkDev (mkOid 8 0) 1476 (mkAddr 0 0 0 [10; 0; 0; 2; 186; 192] [0]).
Definition nx_read : request := RqRead (mkDev (mkOid 8 1) 1476 (nx_src 1)) (mkPD (mkObj [] [] (mkOid 8 1) [mkProp 77 4294967295 VNil 0])).
Definition nx_steps (i n : nat) : list taction := repeat (TDo (ZW (WTsm (ModelTsm.AStep i)))) n.
Definition nx_sent (i : nat) (k : option nat) : list taction :=
  nx_steps i 2 ++ TDo (ZW (WTsm (ModelTsm.AGet i k))) :: nx_steps i 2 ++ TDo (ZW (WTx i true)) :: nx_steps i 2.
Definition nx_answer (j i : nat) (n : Z) (b : list Z) : list taction :=
  [TDo (ZArrive j (nx_src n) b); TDo (ZDeliver j)] ++ nx_steps j 2 ++ [TDo (ZW (WTsm (ModelTsm.ADeliver j i)))].
Definition nx_end (i : nat) : list taction := TDo (ZW (WRet i)) :: nx_steps i 6.
Definition nx_late (i : nat) : list taction := [TPass 5000; TDo (ZW (WTsm (ModelTsm.ATimeout i)))].
(** device 1's answer that its name is AB *)
Definition nx_name (id : Z) : list Z := [129; 10; 0; 22; 1; 0; 48; id; 12; 12; 2; 0; 0; 1; 25; 77; 62; 115; 0; 65; 66; 63].

(** Goroutine 0 reads the name of device 1.  The answer comes; its handler, goroutine 1,
    has found the transaction when the request gives up.  Goroutine 2, which has found
    device 2, asks for its name and gets the object of that transaction from the pool:
    device 2 is listed with the name of device 1. *)
Definition nx_before : list taction :=
  [TDo ZSpawn; TDo ZSpawn; TDo ZSpawn; TDo (ZRequest 0 nx_read)] ++ nx_sent 0 None ++
  [TDo (ZArrive 1 (nx_src 1) (nx_name 1)); TDo (ZDeliver 1)] ++ nx_steps 1 1 ++ nx_late 0 ++ nx_end 0.
Definition nx_silent (i : nat) : list (option taction) := None :: map Some (nx_sent i None ++ nx_late i ++ nx_end i).
Definition nx_crossed : list (option taction) :=
  None :: map Some (nx_sent 2 (Some 0%nat) ++ nx_steps 1 1 ++ [TDo (ZW (WTsm (ModelTsm.ADeliver 1 2)))] ++ nx_end 2) ++
  nx_silent 2 ++ nx_silent 2 ++ nx_silent 2.
Lemma details_keep : forall read ps k x y, ~ In 77 ps -> snd (details_loop read k ps x) = COk y -> dt_name y = dt_name x.
Proof.
  intros read ps. induction ps as [|p ps IH]; intros k x y N H; cbn [details_loop] in H; [injection H as <-; reflexivity|]. unfold nbind in H.
  destruct (ignoring (read k p)) as [tr r]. destruct r as [r|e| |]; try discriminate H.
  assert (P : p <> 77) by (intros ->; apply N; left; reflexivity). specialize (IH (S k) (set_detail p r x) y).
  destruct (details_loop read (S k) ps (set_detail p r x)) as [tr' r']. cbn [snd] in *. rewrite IH; [|intros K; apply N; right; exact K|exact H].
  unfold set_detail. destruct (Z.eqb_spec p 77) as [E|_]; [contradiction|]. destruct (p =? 62), (p =? 121), (p =? 107); reflexivity.
Qed.
Lemma silent_name : forall envs tr b, ev_id (envs O) = Some 2 -> (forall k g, at_reply (ev_att (envs O) k g) = None) ->
  NetworkDiscover envs None (inr [nx_found 2]) = (tr, COk [b]) -> bd_name b = [].
Proof.
  intros envs tr b E N H. unfold NetworkDiscover in H. cbn [net_discover_loop] in H. cbv zeta in H.
  set (dev := NewBDevice _) in H. unfold net_GetDeviceDetails, detail_props in H. set (rd := fun k p => ReadProperty _ _ _ _) in H.
  assert (R : exists tr0 e, rd O 77 = (tr0, CErr e)).
  { unfold rd. replace (as_device dev) with nx_dev2 by (vm_compute; reflexivity). change (bd_deviceid dev) with 2. change (u32 2) with 2. set (rp := mkPD _). assert (A : exists tr0 e, alone (envs O) None (RqRead nx_dev2 rp) = (tr0, CErr e)).
    { rewrite alone_interp, E.
      assert (P : exists d k, start None (RqRead nx_dev2 rp) (Some 2) = PTry d k /\ forall e, exists e', k (inl e) = PRet (CErr e')) by (do 2 eexists; split; [reflexivity|intros e; eexists; reflexivity]).
      destruct P as (d & k & -> & K). cbn [interp]. unfold got. rewrite N.
      assert (G : forall x : cerr + payload, (exists e, x = inl e) -> exists tr0 e, (let '(tr, r) := interp (envs O) 1 (k x) in (d :: tr, r)) = (tr0, CErr e)).
      { intros x (e & ->). destruct (K e) as (e' & ->). cbn. eauto. }
      apply G. destruct (at_sent _); eauto. }
    destruct A as (tr0 & e & A). cbn [alone] in A. unfold both in A. destruct (ReadProperty (envs O) None nx_dev2 rp) as [tr1 r1]. destruct r1; try discriminate A. eauto. }
  destruct R as (tr0 & e & R). set (b0 := bdevice_of_found (nx_found 2)) in H.
  assert (D : exists y tr', details_loop rd 0 [77; 62; 121; 107] details0 = (tr', COk y) /\ b = net_details b0 y).
  { destruct (details_loop rd 0 [77; 62; 121; 107] details0) as [tr' r']. destruct r' as [y|? | |]; cbn in H; try discriminate H. injection H as _ <-. eauto. }
  destruct D as (y & tr' & D & ->). cbn [net_details bd_name]. change (details_loop rd 0 [77; 62; 121; 107] details0) with (nbind (ignoring (rd O 77)) (fun r => details_loop rd 1 [62; 121; 107] (set_detail 77 r details0))) in D.
  rewrite R in D. unfold ignoring, nbind in D. cbn [fst snd] in D.
  assert (D2 : snd (details_loop rd 1 [62; 121; 107] (set_detail 77 zeroPD details0)) = COk y).
  { destruct (details_loop rd 1 [62; 121; 107] (set_detail 77 zeroPD details0)) as [t r]. injection D as _ ->. reflexivity. }
  assert (NI : ~ In 77 [62; 121; 107]) by (cbn; intros [K|[K|[K|[]]]]; discriminate K).
  rewrite (details_keep _ _ _ _ _ NI D2). reflexivity.
Qed.
Theorem c143_crossed_refuted : exists bcast me l0 t0 i l t' found r fs,
  trun bcast me t_init l0 = Some t0 /\ z_free (t_z t0) i = true /\
  performs bcast me i t0 (net_discover_script found) l t' (SEnd r) fs /\ z_dead (t_z t') = false /\
  ~ exists envs, NetworkDiscover envs me (inr found) = (flat_map fi_sent fs, r) /\ own_in (steps (l0 ++ l)) envs fs.
Proof.
  destruct (driven_shown _ nx_bcast None 2%nat nx_before (net_discover_script [nx_found 2]) nx_crossed
    (fun la _ _ s fs => match s with SEnd (COk [b]) => match bd_name b with [] => false | _ => true end | _ => false end
       && match fs with f :: _ => match fi_id f with Some id => id =? 2 | None => false end | [] => false end
       && forallb (fun a => match a with TDo (ZArrive _ _ b) => if list_eq_dec Z.eq_dec b (nx_name 1) then true else false | _ => true end) (nx_before ++ la)))
    as (la & t0 & t' & s' & fs & R0 & FR & P & _ & _ & LV & C); [vm_compute; reflexivity|].
  apply andb_prop in C. destruct C as [C CA]. apply andb_prop in C. destruct C as [C CF]. destruct s' as [r|]; [|discriminate C]. destruct r as [m| | |]; try discriminate C. destruct m as [|b [|? ?]]; try discriminate C.
  destruct fs as [|f fs]; [discriminate CF|]. destruct (fi_id f) as [id|] eqn:FI; [|discriminate CF]. apply Z.eqb_eq in CF. subst id.
  exists nx_bcast, None, nx_before, t0, 2%nat, la, t', [nx_found 2], (COk [b]), (f :: fs). split; [exact R0|]. split; [exact FR|]. split; [exact P|]. split; [exact LV|].
  intros (envs & O & IDS & OWN). pose proof (IDS 0%nat f eq_refl) as E0. rewrite FI in E0.
  assert (NM : bd_name b = []); [|rewrite NM in C; discriminate C]. apply (silent_name envs (flat_map fi_sent (f :: fs)) b E0); [|exact O].
  intros k g. destruct (at_reply (ev_att (envs 0%nat) k g)) as [p|] eqn:Q; [|reflexivity]. exfalso. destruct (OWN _ _ _ _ Q) as (id & E1 & j & src & by_ & A & D). rewrite E0 in E1. injection E1 as <-.
  apply in_flat_map in A. destruct A as (a & A1 & A2). rewrite forallb_forall in CA. specialize (CA _ A1). destruct a as [a|]; [|destruct A2]. destruct A2 as [->|[]].
  destruct (list_eq_dec Z.eq_dec by_ (nx_name 1)) as [->|]; [|discriminate CA]. vm_compute in D. destruct D as [D|[]]. discriminate D.
Qed.
Print Assumptions c143_crossed_refuted.

(** Goroutine 1 scans the points of device 1 while goroutine 2 waits for an answer to a
    request of its own.  The list of objects is an analogue input, the device and a binary
    value; the answers come after 100 ms, at once, never (the unit), and at once. *)
Definition nx_device : ndevice :=
  mkND [] 47808 1 0 0 1476 3 [] [] [] (NewBDevice (mkBD (mkOid 8 1) 1 [49; 48; 46; 48; 46; 48; 46; 49] 47808 0 0 1476 3 0 addr0 [] [])).
Definition nx_list (id : Z) : list Z :=
  [129; 10; 0; 33; 1; 0; 48; id; 12; 12; 2; 0; 0; 1; 25; 76; 62; 196; 0; 0; 0; 5; 196; 2; 0; 0; 1; 196; 1; 64; 0; 1; 63].
Definition nx_shared : list taction := [TDo ZSpawn; TDo ZSpawn; TDo ZSpawn; TDo (ZRequest 2 nx_read)] ++ nx_sent 2 None.
Definition nx_points : script (list pointDetails) := GetDevicePoints_script nx_device 1 (inr [nx_found 1]).
Definition nx_run : list (option taction) :=
  None :: map Some (nx_sent 1 None ++ [TPass 100] ++ nx_answer 0 1 1 (nx_list 2) ++ nx_end 1) ++
  None :: map Some (nx_sent 1 None ++ nx_answer 0 1 1 (nx_name 3) ++ nx_end 1) ++
  None :: map Some (nx_sent 1 None ++ [TPass 4900; TDo (ZW (WTsm (ModelTsm.ATimeout 2)))] ++ nx_end 2 ++ [TPass 100; TDo (ZW (WTsm (ModelTsm.ATimeout 1)))] ++ nx_end 1) ++
  None :: map Some (nx_sent 1 None ++ nx_answer 0 1 1 (nx_name 5) ++ nx_end 1).
Lemma nx_runs : exists l t0 t' fs p q, trun nx_bcast None t_init nx_shared = Some t0 /\ z_free (t_z t0) 1 = true /\
  performs nx_bcast None 1 t0 nx_points l t' (SEnd (COk [p; q])) fs /\
  prompt nx_bcast None t0 l /\ without_pause nx_bcast None 1 t0 nx_points l /\ z_dead (t_z t') = false /\
  no_reuse (steps (nx_shared ++ l)) /\
  length fs = 4%nat /\ pd_name p = [65; 66] /\ pd_inst p = 5 /\ pd_type q = 5 /\ t_now t' - t_now t0 = 5100.
Proof.
  destruct (driven_shown _ nx_bcast None 1%nat nx_shared nx_points nx_run
    (fun la t0 t' s fs => forallb (fun a => negb (pool_reuse a)) (steps (nx_shared ++ la)) && Nat.eqb (length fs) 4 && (t_now t' - t_now t0 =? 5100) &&
       match s with
       | SEnd (COk [p; q]) => (if list_eq_dec Z.eq_dec (pd_name p) [65; 66] then true else false) && (pd_inst p =? 5) && (pd_type q =? 5)
       | _ => false
       end))
    as (la & t0 & t' & s' & fs & R0 & FR & P & PR & WP & LV & C); [vm_compute; reflexivity|].
  apply andb_prop in C. destruct C as [C C4]. apply andb_prop in C. destruct C as [C C3]. apply andb_prop in C. destruct C as [C1 C2]. apply Nat.eqb_eq in C2. apply Z.eqb_eq in C3.
  destruct s' as [r|]; [|discriminate C4]. destruct r as [m| | |]; try discriminate C4. destruct m as [|p [|q [|? ?]]]; try discriminate C4.
  apply andb_prop in C4. destruct C4 as [C4 C5]. apply andb_prop in C4. destruct C4 as [C4 C6]. apply Z.eqb_eq in C5, C6. destruct (list_eq_dec Z.eq_dec (pd_name p) [65; 66]); [|discriminate C4].
  exists la, t0, t', fs, p, q. exact (conj R0 (conj FR (conj P (conj PR (conj WP (conj LV (conj C1 (conj C2 (conj e (conj C6 (conj C5 C3))))))))))).
Qed.
Example c143_ex : exists l t0 t' fs p q, trun nx_bcast None t_init nx_shared = Some t0 /\ z_free (t_z t0) 1 = true /\
  performs nx_bcast None 1 t0 nx_points l t' (SEnd (COk [p; q])) fs /\ no_reuse (steps (nx_shared ++ l)) /\ length fs = 4%nat /\ pd_name p = [65; 66] /\ pd_inst p = 5 /\ pd_type q = 5.
Proof. destruct nx_runs as (l & t0 & t' & fs & p & q & H1 & H2 & H3 & _ & _ & _ & H7 & H8 & H9 & H10 & H11 & _). exists l, t0, t', fs, p, q.
  exact (conj H1 (conj H2 (conj H3 (conj H7 (conj H8 (conj H9 (conj H10 H11))))))). Qed.
(** Goroutine 0 discovers: one device has answered the Who-Is, it tells its name and then
    nothing more. *)
Definition nx_alone : list (option taction) :=
  None :: map Some (nx_sent 0 None ++ nx_answer 1 0 2 (nx_name 1) ++ nx_end 0) ++ nx_silent 0 ++ nx_silent 0 ++ nx_silent 0.
Lemma nx_discovers : exists l t0 t' fs b, trun nx_bcast None t_init [TDo ZSpawn; TDo ZSpawn] = Some t0 /\ z_free (t_z t0) 0 = true /\
  performs nx_bcast None 0 t0 (net_discover_script [nx_found 2]) l t' (SEnd (COk [b])) fs /\
  prompt nx_bcast None t0 l /\ without_pause nx_bcast None 0 t0 (net_discover_script [nx_found 2]) l /\ z_dead (t_z t') = false /\
  no_reuse (steps ([TDo ZSpawn; TDo ZSpawn] ++ l)) /\ bd_name b = [65; 66] /\ length fs = 4%nat /\ t_now t' - t_now t0 = 15000.
Proof.
  destruct (driven_shown _ nx_bcast None 0%nat [TDo ZSpawn; TDo ZSpawn] (net_discover_script [nx_found 2]) nx_alone
    (fun la t0 t' s fs => forallb (fun a => negb (pool_reuse a)) (steps ([TDo ZSpawn; TDo ZSpawn] ++ la)) && Nat.eqb (length fs) 4 && (t_now t' - t_now t0 =? 15000) &&
       match s with SEnd (COk [b]) => if list_eq_dec Z.eq_dec (bd_name b) [65; 66] then true else false | _ => false end))
    as (la & t0 & t' & s' & fs & R0 & FR & P & PR & WP & LV & C); [vm_compute; reflexivity|].
  apply andb_prop in C. destruct C as [C C4]. apply andb_prop in C. destruct C as [C C3]. apply andb_prop in C. destruct C as [C1 C2]. apply Nat.eqb_eq in C2. apply Z.eqb_eq in C3.
  destruct s' as [r|]; [|discriminate C4]. destruct r as [m| | |]; try discriminate C4. destruct m as [|b [|? ?]]; try discriminate C4.
  destruct (list_eq_dec Z.eq_dec (bd_name b) [65; 66]); [|discriminate C4].
  exists la, t0, t', fs, b. exact (conj R0 (conj FR (conj P (conj PR (conj WP (conj LV (conj C1 (conj e (conj C2 C3))))))))).
Qed.
Example c143_discover_ex : exists l t0 t' fs b, trun nx_bcast None t_init [TDo ZSpawn; TDo ZSpawn] = Some t0 /\ z_free (t_z t0) 0 = true /\
  performs nx_bcast None 0 t0 (net_discover_script [nx_found 2]) l t' (SEnd (COk [b])) fs /\ no_reuse (steps ([TDo ZSpawn; TDo ZSpawn] ++ l)) /\ bd_name b = [65; 66].
Proof. destruct nx_discovers as (l & t0 & t' & fs & b & H1 & H2 & H3 & _ & _ & _ & H7 & H8 & _). exists l, t0, t', fs, b. exact (conj H1 (conj H2 (conj H3 (conj H7 H8)))). Qed.

(** C144.  If time passes only while nothing can go on and the goroutine does not tarry
    between its requests: a discovery asks each device found for at most 24 s, whatever
    the devices do. *)
Theorem c144_discover : forall bcast me l0 t0 i l t' found r fs,
  trun bcast me t_init l0 = Some t0 -> z_free (t_z t0) i = true ->
  performs bcast me i t0 (net_discover_script found) l t' (SEnd r) fs -> prompt bcast me t0 l ->
  without_pause bcast me i t0 (net_discover_script found) l -> z_dead (t_z t') = false ->
  t_now t' - t_now t0 <= 24000 * Z.of_nat (length found).
Proof. exact net_discover_time. Qed.
Print Assumptions c144_discover.
Theorem c144_devices : forall bcast me l0 t0 i l t' d found r fs,
  trun bcast me t_init l0 = Some t0 -> z_free (t_z t0) i = true ->
  performs bcast me i t0 (discover_script [] d found) l t' (SEnd r) fs -> prompt bcast me t0 l ->
  without_pause bcast me i t0 (discover_script [] d found) l -> z_dead (t_z t') = false ->
  t_now t' - t_now t0 <= 24000 * Z.of_nat (length found).
Proof. exact discover_time. Qed.
Print Assumptions c144_devices.
(** The list of the objects of a device: 6 s for each object of the result and 12 s. *)
Theorem c144_objects : forall bcast me l0 t0 i l t' d id w os d' fs,
  trun bcast me t_init l0 = Some t0 -> z_free (t_z t0) i = true ->
  performs bcast me i t0 (DeviceObjects_script d id w) l t' (SEnd (COk (os, d'))) fs -> prompt bcast me t0 l ->
  without_pause bcast me i t0 (DeviceObjects_script d id w) l -> z_dead (t_z t') = false ->
  t_now t' - t_now t0 <= 6000 * (2 + Z.of_nat (length os)).
Proof. exact device_objects_time. Qed.
Print Assumptions c144_objects.
(** The points: further 12 s for each point of the result, which are the objects of the
    list other than devices. *)
Theorem c144_points : forall bcast me l0 t0 i l t' d id w ps fs,
  trun bcast me t_init l0 = Some t0 -> z_free (t_z t0) i = true ->
  performs bcast me i t0 (GetDevicePoints_script d id w) l t' (SEnd (COk ps)) fs -> prompt bcast me t0 l ->
  without_pause bcast me i t0 (GetDevicePoints_script d id w) l -> z_dead (t_z t') = false ->
  exists envs os d', arrived_in (steps (l0 ++ l)) envs fs /\ snd (DeviceObjects 0 envs me d id (Some w)) = COk (os, d') /\
    length ps = length (filter (fun o => negb (oid_type o =? 8)) os) /\
    t_now t' - t_now t0 <= 6000 * (2 + Z.of_nat (length os) + 2 * Z.of_nat (length ps)).
Proof. exact points_time. Qed.
Print Assumptions c144_points.
(** At every moment of a scan: 6 s for each request that has returned, and 6 s for the
    one that is next.  No answer keeps it longer. *)
Theorem c144_meanwhile : forall bcast me l0 t0 i l t' d id w s' fs,
  trun bcast me t_init l0 = Some t0 -> z_free (t_z t0) i = true ->
  performs bcast me i t0 (GetDevicePoints_script d id w) l t' s' fs -> prompt bcast me t0 l ->
  without_pause bcast me i t0 (GetDevicePoints_script d id w) l -> z_dead (t_z t') = false ->
  t_now t' - t_now t0 <= 6000 * (Z.of_nat (length fs) + match s' with SCall _ _ => 1 | SEnd _ => 0 end).
Proof. intros bcast me l0 t0 i l t' d id w s' fs R0 FR P. exact (reads_in_time _ bcast me l0 t0 i l t' _ s' fs R0 FR P (reads_device_points d id w)). Qed.
Print Assumptions c144_meanwhile.
(** the two runs meet the hypotheses; they took 5.1 s and 15 s *)
Example c144_points_ex : exists l t0 t' fs ps, trun nx_bcast None t_init nx_shared = Some t0 /\ z_free (t_z t0) 1 = true /\
  performs nx_bcast None 1 t0 nx_points l t' (SEnd (COk ps)) fs /\ prompt nx_bcast None t0 l /\ without_pause nx_bcast None 1 t0 nx_points l /\ z_dead (t_z t') = false /\
  length ps = 2%nat /\ length fs = 4%nat /\ t_now t' - t_now t0 = 5100.
Proof. destruct nx_runs as (l & t0 & t' & fs & p & q & H1 & H2 & H3 & H4 & H5 & H6 & _ & H8 & _ & _ & _ & H12). exists l, t0, t', fs, [p; q].
  exact (conj H1 (conj H2 (conj H3 (conj H4 (conj H5 (conj H6 (conj eq_refl (conj H8 H12)))))))). Qed.
Example c144_discover_ex : exists l t0 t' fs b, trun nx_bcast None t_init [TDo ZSpawn; TDo ZSpawn] = Some t0 /\ z_free (t_z t0) 0 = true /\
  performs nx_bcast None 0 t0 (net_discover_script [nx_found 2]) l t' (SEnd (COk [b])) fs /\
  prompt nx_bcast None t0 l /\ without_pause nx_bcast None 0 t0 (net_discover_script [nx_found 2]) l /\ z_dead (t_z t') = false /\ t_now t' - t_now t0 = 15000.
Proof. destruct nx_discovers as (l & t0 & t' & fs & b & H1 & H2 & H3 & H4 & H5 & H6 & _ & _ & _ & H10). exists l, t0, t', fs, b.
  exact (conj H1 (conj H2 (conj H3 (conj H4 (conj H5 (conj H6 H10)))))). Qed.
