(** * C140, C141: Objects on a client that others use as well

    [performs … i t s l t' s' fs] (SpecScript): in the steps [l] goroutine [i], whose
    function has [s] before it, comes to [s']; [fs] are the requests that returned to it
    meanwhile.  All other goroutines of the client do whatever they like. *)
Require Import List ZArith Bool Lia.
From Verif Require Import ModelClient ModelSystem ModelScan ModelWhole ModelTime ModelScript SpecSystem SpecWhole SpecFair SpecTime SpecScript.
From Verif Require ModelTsm.
From Verif Require Import ProofsSystem ProofsTimeCheck ProofsScript.
Import ListNotations.
Open Scope Z_scope.

(** C140.  Whatever others do with the client, Objects sends and returns what it does on
    a client of its own, for some answers to its requests; each of them has arrived, and
    each for the transaction that takes it if the pool hands out new objects only. *)
Theorem c140_as_alone_partial : forall bcast me l0 t0 i l t' fuel order dev r fs,
  trun bcast me t_init l0 = Some t0 -> z_free (t_z t0) i = true ->
  performs bcast me i t0 (Objects_script fuel order dev) l t' (SEnd r) fs ->
  exists envs, Objects fuel order envs me dev = (flat_map fi_sent fs, r) /\
    (forall n f, nth_error fs n = Some f -> ev_id (envs n) = fi_id f) /\
    (forall n k g p, at_reply (ev_att (envs n) k g) = Some p -> exists id, answered_in (steps (l0 ++ l)) id p) /\
    (forallb (fun a => negb (pool_reuse a)) (steps (l0 ++ l)) = true ->
      forall n k g p, at_reply (ev_att (envs n) k g) = Some p -> exists id, ev_id (envs n) = Some id /\ answered_in (steps (l0 ++ l)) id p).
Proof. exact objects_shared. Qed.
Print Assumptions c140_as_alone_partial.
(** The clock takes no run away: every run without one is a run with one. *)
Theorem c140_clocked : forall bcast me l t z', zrun bcast me (t_z t) l = Some z' ->
  exists lt t', trun bcast me t lt = Some t' /\ steps lt = l /\ t_z t' = z'.
Proof. exact clocked. Qed.
Print Assumptions c140_clocked.

Definition sx_bcast : address := mkAddr 0 0 6 [10; 0; 0; 255; 186; 192] [].
Definition sx_src (n : Z) : address := mkAddr 0 0 6 [10; 0; 0; n; 186; 192] [].
Definition sx_dev (n : Z) : device := mkDev (mkOid 8 n) 1476 (sx_src n).
Definition sx_read : request := RqRead (sx_dev 1) (mkPD (mkObj [] [] (mkOid 0 1) [mkProp 85 4294967295 VNil 0])).
Definition sx_steps (i n : nat) : list taction := repeat (TDo (ZW (WTsm (ModelTsm.AStep i)))) n.
Definition sx_sent (i : nat) (k : option nat) : list taction :=
  sx_steps i 2 ++ TDo (ZW (WTsm (ModelTsm.AGet i k))) :: sx_steps i 2 ++ TDo (ZW (WTx i true)) :: sx_steps i 2.
Definition sx_answer (j i : nat) (n : Z) (b : list Z) : list taction :=
  [TDo (ZArrive j (sx_src n) b); TDo (ZDeliver j)] ++ sx_steps j 2 ++ [TDo (ZW (WTsm (ModelTsm.ADeliver j i)))].
Definition sx_end (i : nat) : list taction := TDo (ZW (WRet i)) :: sx_steps i 6.
(** the length of the list, its only element, and that object's name and description *)
Definition sx_len (id n : Z) : list Z := [129; 10; 0; 22; 1; 0; 48; id; 12; 12; 2; 0; 0; 1; 25; 76; 41; 0; 62; 33; n; 63].
Definition sx_list (id : Z) : list Z := [129; 10; 0; 27; 1; 0; 48; id; 14; 12; 2; 0; 0; 1; 30; 41; 76; 57; 1; 78; 196; 0; 0; 0; 5; 79; 31].
Definition sx_info (id : Z) : list Z :=
  [129; 10; 0; 31; 1; 0; 48; id; 14; 12; 0; 0; 0; 5; 30; 41; 77; 78; 115; 0; 65; 66; 79; 41; 28; 78; 114; 0; 67; 79; 31].
Definition sx_keep (m : list (object_id * object)) : list (object_id * object) := m.
Definition sx_objects (n : Z) : script (list (object_id * object)) := Objects_script 30 sx_keep (sx_dev n).

(** Goroutine 0 reads a property of device 1.  The answer comes; its handler, goroutine
    1, has found the transaction when the request gives up.  Goroutine 2 calls Objects
    for device 2 and gets the object of that transaction from the pool. *)
Definition sx_before : list taction :=
  [TDo ZSpawn; TDo ZSpawn; TDo ZSpawn; TDo (ZRequest 0 sx_read)] ++ sx_sent 0 None ++
  [TDo (ZArrive 1 (sx_src 1) (sx_len 1 0)); TDo (ZDeliver 1)] ++ sx_steps 1 1 ++
  [TPass 5000; TDo (ZW (WTsm (ModelTsm.ATimeout 0)))] ++ sx_end 0.
Definition sx_crossed : list (option taction) :=
  None :: map Some (sx_sent 2 (Some 0%nat) ++ sx_steps 1 1 ++ [TDo (ZW (WTsm (ModelTsm.ADeliver 1 2)))] ++ sx_end 2).
Lemma silent_objects : forall envs, ev_id (envs O) = Some 2 -> (forall k g, at_reply (ev_att (envs O) k g) = None) ->
  exists tr e, Objects 30 sx_keep envs None (sx_dev 2) = (tr, CErr e).
Proof.
  intros envs E N. rewrite <- plays_objects.
  assert (S : exists c, Objects_script 30 sx_keep (sx_dev 2) = SCall (RqRead (sx_dev 2) (mkPD (mkObj [] [] (mkOid 8 2) [mkProp propObjectList 0 VNil 0]))) c /\
    forall e, exists e', c (CErr e) = SEnd (CErr e')) by (eexists; split; [reflexivity|intros e; eexists; reflexivity]).
  destruct S as (c & -> & C). cbn [plays]. rewrite alone_interp, E.
  assert (P : exists d k, start None (RqRead (sx_dev 2) (mkPD (mkObj [] [] (mkOid 8 2) [mkProp propObjectList 0 VNil 0]))) (Some 2) = PTry d k /\
    forall e, exists e', k (inl e) = PRet (CErr e')) by (do 2 eexists; split; [reflexivity|intros e; eexists; reflexivity]).
  destruct P as (d & k & -> & K). cbn [interp]. unfold got. rewrite N.
  assert (G : forall x : cerr + payload, (exists e, x = inl e) -> exists tr e, snd (let '(tr, r) := let '(tr, r) := interp (envs O) 1 (k x) in (d :: tr, r) in
     let '(k', (tr', r')) := plays envs None 1 (c r) in (k', (tr ++ tr', r'))) = (tr, CErr e)).
  { intros x (e & ->). destruct (K e) as (e' & ->). cbn [interp]. destruct (C e') as (e2 & ->). cbn. eauto. }
  apply G. destruct (at_sent _); eauto.
Qed.
Theorem c140_crossed_refuted : exists bcast me l0 t0 i l t' fuel order dev r fs,
  trun bcast me t_init l0 = Some t0 /\ z_free (t_z t0) i = true /\
  performs bcast me i t0 (Objects_script fuel order dev) l t' (SEnd r) fs /\ z_dead (t_z t') = false /\
  ~ exists envs, Objects fuel order envs me dev = (flat_map fi_sent fs, r) /\ (forall n f, nth_error fs n = Some f -> ev_id (envs n) = fi_id f) /\
      (forall n k g p, at_reply (ev_att (envs n) k g) = Some p -> exists id, ev_id (envs n) = Some id /\ answered_in (steps (l0 ++ l)) id p).
Proof.
  destruct (driven_shown _ sx_bcast None 2%nat sx_before (sx_objects 2) sx_crossed
    (fun la _ _ s fs => match s, fs with SEnd (COk []), [f] => match fi_id f with Some 2 => true | _ => false end | _, _ => false end
       && forallb (fun a => match a with TDo (ZArrive _ _ b) => if list_eq_dec Z.eq_dec b (sx_len 1 0) then true else false | _ => true end) (sx_before ++ la)))
    as (la & t0 & t' & s' & fs & R0 & FR & P & _ & _ & LV & C); [vm_compute; reflexivity|].
  apply andb_prop in C. destruct C as [C CA]. destruct s' as [r|]; [|discriminate C]. destruct r as [m| | |]; try discriminate C. destruct m; [|discriminate C].
  destruct fs as [|f [|? ?]]; try discriminate C. destruct (fi_id f) as [id|] eqn:FI; [|discriminate C].
  assert (id = 2) by (destruct (Z.eq_dec id 2) as [|D]; [assumption|exfalso; destruct id as [|[[]|[]|]|]; try discriminate C; apply D; reflexivity]). subst id.
  exists sx_bcast, None, sx_before, t0, 2%nat, la, t', 30%nat, sx_keep, (sx_dev 2), (COk []), [f]. split; [exact R0|]. split; [exact FR|]. split; [exact P|]. split; [exact LV|].
  intros (envs & O & IDS & OWN). pose proof (IDS 0%nat f eq_refl) as E0. rewrite FI in E0.
  destruct (silent_objects envs E0) as (tr & e & X); [|rewrite X in O; discriminate O].
  intros k g. destruct (at_reply (ev_att (envs 0%nat) k g)) as [p|] eqn:Q; [|reflexivity]. exfalso. destruct (OWN _ _ _ _ Q) as (id & E1 & j & src & b & A & D). rewrite E0 in E1. injection E1 as <-.
  apply in_flat_map in A. destruct A as (a & A1 & A2). rewrite forallb_forall in CA. specialize (CA _ A1). destruct a as [a|]; [|destruct A2]. destruct A2 as [->|[]].
  destruct (list_eq_dec Z.eq_dec b (sx_len 1 0)) as [->|]; [|discriminate CA]. vm_compute in D. destruct D as [D|[]]. discriminate D.
Qed.
Print Assumptions c140_crossed_refuted.

(** Goroutine 1 calls Objects while goroutine 2 waits for an answer to a request of its
    own: three requests of goroutine 1, answers after 100 ms, at once, and after 300 ms. *)
Definition sx_shared : list taction := [TDo ZSpawn; TDo ZSpawn; TDo ZSpawn; TDo (ZRequest 2 sx_read)] ++ sx_sent 2 None.
Definition sx_run : list (option taction) :=
  None :: map Some (sx_sent 1 None ++ [TPass 100] ++ sx_answer 0 1 1 (sx_len 2 1) ++ sx_end 1) ++
  None :: map Some (sx_sent 1 None ++ sx_answer 0 1 1 (sx_list 3) ++ sx_end 1) ++
  None :: map Some (sx_sent 1 None ++ [TPass 300] ++ sx_answer 0 1 1 (sx_info 4) ++ sx_end 1).
Lemma sx_runs : exists l t0 t' fs id o, trun sx_bcast None t_init sx_shared = Some t0 /\ z_free (t_z t0) 1 = true /\
  performs sx_bcast None 1 t0 (Objects_script 30 sx_keep (sx_dev 1)) l t' (SEnd (COk [(id, o)])) fs /\
  prompt sx_bcast None t0 l /\ without_pause sx_bcast None 1 t0 (Objects_script 30 sx_keep (sx_dev 1)) l /\ z_dead (t_z t') = false /\
  forallb (fun a => negb (pool_reuse a)) (steps (sx_shared ++ l)) = true /\
  length fs = 3%nat /\ id = mkOid 0 5 /\ o_name o = [65; 66] /\ o_desc o = [67] /\ t_now t' - t_now t0 = 400 /\ limits fs = 46000.
Proof.
  destruct (driven_shown _ sx_bcast None 1%nat sx_shared (sx_objects 1) sx_run
    (fun la t0 t' s fs => forallb (fun a => negb (pool_reuse a)) (steps (sx_shared ++ la)) && Nat.eqb (length fs) 3 && (t_now t' - t_now t0 =? 400) && (limits fs =? 46000) &&
       match s with
       | SEnd (COk [(id, o)]) => (oid_type id =? 0) && (oid_inst id =? 5) && (if list_eq_dec Z.eq_dec (o_name o) [65; 66] then true else false)
                                 && (if list_eq_dec Z.eq_dec (o_desc o) [67] then true else false)
       | _ => false
       end))
    as (la & t0 & t' & s' & fs & R0 & FR & P & PR & WP & LV & C); [vm_compute; reflexivity|].
  apply andb_prop in C. destruct C as [C C4]. apply andb_prop in C. destruct C as [C C8]. apply andb_prop in C. destruct C as [C C3]. apply andb_prop in C. destruct C as [C1 C2]. apply Nat.eqb_eq in C2. apply Z.eqb_eq in C3, C8.
  destruct s' as [r|]; [|discriminate C4]. destruct r as [m| | |]; try discriminate C4. destruct m as [|[id o] [|? ?]]; try discriminate C4.
  apply andb_prop in C4. destruct C4 as [C4 C5]. apply andb_prop in C4. destruct C4 as [C4 C6]. apply andb_prop in C4. destruct C4 as [C4 C7]. apply Z.eqb_eq in C4, C7.
  destruct (list_eq_dec Z.eq_dec (o_desc o) [67]); [|discriminate C5]. destruct (list_eq_dec Z.eq_dec (o_name o) [65; 66]); [|discriminate C6].
  exists la, t0, t', fs, id, o. split; [exact R0|]. split; [exact FR|]. split; [exact P|]. split; [exact PR|]. split; [exact WP|]. split; [exact LV|]. split; [exact C1|]. split; [exact C2|].
  split; [clear - C4 C7; destruct id; cbn in C4, C7; subst; reflexivity|]. split; [assumption|]. split; [assumption|]. split; [exact C3|exact C8].
Qed.
Example c140_ex : exists l t0 t' fs id o, trun sx_bcast None t_init sx_shared = Some t0 /\ z_free (t_z t0) 1 = true /\
  performs sx_bcast None 1 t0 (Objects_script 30 sx_keep (sx_dev 1)) l t' (SEnd (COk [(id, o)])) fs /\
  forallb (fun a => negb (pool_reuse a)) (steps (sx_shared ++ l)) = true /\ length fs = 3%nat /\ id = mkOid 0 5 /\ o_name o = [65; 66] /\ o_desc o = [67].
Proof. destruct sx_runs as (l & t0 & t' & fs & id & o & H1 & H2 & H3 & _ & _ & _ & H7 & H8 & H9 & H10 & H11 & _ & _). exists l, t0, t', fs, id, o.
  exact (conj H1 (conj H2 (conj H3 (conj H7 (conj H8 (conj H9 (conj H10 H11))))))). Qed.

(** C141.  If time passes only while nothing can go on, and the goroutine does not tarry
    between its requests, then Objects has returned, with success or an error, within
    the sum of the limits of the requests it made (C128). *)
Theorem c141_returned : forall bcast me l0 t0 i l t' fuel order dev r fs,
  trun bcast me t_init l0 = Some t0 -> z_free (t_z t0) i = true ->
  performs bcast me i t0 (Objects_script fuel order dev) l t' (SEnd r) fs -> prompt bcast me t0 l ->
  without_pause bcast me i t0 (Objects_script fuel order dev) l -> z_dead (t_z t') = false ->
  t_now t' - t_now t0 <= limits fs.
Proof. intros bcast me l0 t0 i l t' fuel order dev r fs. exact (script_returned_in_time _ bcast me l0 t0 i l t' _ r fs). Qed.
Print Assumptions c141_returned.
(** A success: with the [n] elements that the device reported and the [m'] objects of
    the result, that is 6 s and 20 s for each part of the list and each five objects. *)
Theorem c141_success : forall bcast me l0 t0 i l t' fuel order dev m' fs, (forall m, length (order m) = length m) -> 20 <= dv_maxapdu dev ->
  trun bcast me t_init l0 = Some t0 -> z_free (t_z t0) i = true ->
  performs bcast me i t0 (Objects_script fuel order dev) l t' (SEnd (COk m')) fs -> prompt bcast me t0 l ->
  without_pause bcast me i t0 (Objects_script fuel order dev) l -> z_dead (t_z t') = false ->
  exists f fs' pd p ps n, fs = f :: fs' /\ fi_result f = COk (AnRead pd) /\ o_props (pd_object pd) = p :: ps /\ pr_data p = VUint n /\
    (0 <= n -> Z.of_nat (length fs') <= (n + dv_maxapdu dev / 20 - 1) / (dv_maxapdu dev / 20) + (Z.of_nat (length m') + 4) / 5 /\
      t_now t' - t_now t0 <= 6000 + 20000 * Z.of_nat (length fs')).
Proof. exact objects_time. Qed.
Print Assumptions c141_success.
(** At every moment before: the requests that have returned and the one that is next
    account for the time, unless a decoder never leaves an answer. *)
Theorem c141_meanwhile : forall bcast me l0 t0 i l t' fuel order dev s' fs,
  trun bcast me t_init l0 = Some t0 -> z_free (t_z t0) i = true ->
  performs bcast me i t0 (Objects_script fuel order dev) l t' s' fs -> prompt bcast me t0 l -> no_loop bcast me i t0 l ->
  without_pause bcast me i t0 (Objects_script fuel order dev) l -> z_dead (t_z t') = false ->
  t_now t' - t_now t0 <= limits fs + next_limit s'.
Proof. intros bcast me l0 t0 i l t' fuel order dev s' fs. exact (script_in_time _ bcast me l0 t0 i l t' _ s' fs). Qed.
Print Assumptions c141_meanwhile.
(** the run of [c140_ex] meets the hypotheses; it took 0.4 s *)
Example c141_ex : exists l t0 t' fs m, trun sx_bcast None t_init sx_shared = Some t0 /\ z_free (t_z t0) 1 = true /\
  performs sx_bcast None 1 t0 (Objects_script 30 sx_keep (sx_dev 1)) l t' (SEnd (COk m)) fs /\
  prompt sx_bcast None t0 l /\ without_pause sx_bcast None 1 t0 (Objects_script 30 sx_keep (sx_dev 1)) l /\ z_dead (t_z t') = false /\
  length m = 1%nat /\ limits fs = 46000 /\ t_now t' - t_now t0 = 400.
Proof.
  destruct sx_runs as (l & t0 & t' & fs & id & o & H1 & H2 & H3 & H4 & H5 & H6 & _ & H8 & _ & _ & _ & H12 & H13). exists l, t0, t', fs, [(id, o)].
  exact (conj H1 (conj H2 (conj H3 (conj H4 (conj H5 (conj H6 (conj eq_refl (conj H13 H12)))))))).
Qed.
