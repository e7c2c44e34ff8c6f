(** * C128, C129, C130: how long requests take *)
From Coq Require Import Lia.
From Verif Require Import ModelClient ModelSystem ModelScan ModelWhole ModelTime SpecSystem SpecRun SpecFair SpecTime.
From Verif Require ModelTsm ModelUtsm.
From Verif Require Import ProofsFairWhole ProofsTime ProofsTimeAnswer ProofsTimeCheck.
Import ListNotations.
Open Scope Z_scope.

(** C128.  If time passes only while nothing can go on, a request has returned once its
    limit is over, unless it has met an answer that its decoder never leaves. *)
Theorem c128_in_time_partial : forall bcast me l1 t0 i rq t1 l2 t2,
  trun bcast me t_init l1 = Some t0 -> texec bcast me t0 (TDo (ZRequest i rq)) = Some t1 -> trun bcast me t1 l2 = Some t2 ->
  prompt bcast me t1 l2 -> z_dead (t_z t2) = false ->
  (lists rq = true -> forall la lb ta x, l2 = la ++ lb -> trun bcast me t1 la = Some ta -> nth_error (w_ph (z_w (t_z ta))) i = Some x -> looping x = false) ->
  limit rq < t_now t2 - t_now t0 ->
  exists f d, returned_of i t2 = d ++ f :: returned_of i t0 /\ fi_req f = rq.
Proof. exact in_time. Qed.
Print Assumptions c128_in_time_partial.

(** C129.  A request does not give up early, whatever the scheduler does: 5 s for every
    attempt that brought no answer, and the whole wait for an id if it got none. *)
Theorem c129_never_early : forall bcast me l1 t0 i rq t1 l2 t2 f d,
  trun bcast me t_init l1 = Some t0 -> texec bcast me t0 (TDo (ZRequest i rq)) = Some t1 -> trun bcast me t1 l2 = Some t2 ->
  z_dead (t_z t2) = false -> returned_of i t2 = d ++ f :: returned_of i t0 ->
  fi_req f = rq /\ 5000 * timeouts f + (match fi_id f with None => id_limit rq | Some _ => 0 end) <= t_now t2 - t_now t0.
Proof. exact never_early_limit. Qed.
Print Assumptions c129_never_early.
(** So the caller that is told of a time-out or of the lack of an id has waited. *)
Theorem c129_reported : forall bcast me l1 t0 i rq t1 l2 t2 f d,
  trun bcast me t_init l1 = Some t0 -> texec bcast me t0 (TDo (ZRequest i rq)) = Some t1 -> trun bcast me t1 l2 = Some t2 ->
  z_dead (t_z t2) = false -> returned_of i t2 = d ++ f :: returned_of i t0 ->
  (fi_result f = CErr CNoId -> id_limit rq <= t_now t2 - t_now t0) /\
  (fi_result f = CErr CTimeout \/ fi_result f = CErr (CWrap CTimeout) -> 5000 <= t_now t2 - t_now t0).
Proof. exact reported_limit. Qed.
Print Assumptions c129_reported.

(** C130.  An answer that arrives before the wait for it is over ends the attempt: once
    any time has passed, the call has taken an answer. *)
Theorem c130_not_lost : forall bcast me l1 t0 i j id h src b pl t1 l2 t2,
  trun bcast me t_init l1 = Some t0 -> awaits i id h t0 ->
  In (EDeliver id pl) (fst (handleMsg (fun _ => true) src b)) -> published (fun _ => true) [(src, b)] = [] ->
  texec bcast me t0 (TDo (ZArrive j src b)) = Some t1 -> trun bcast me t1 l2 = Some t2 ->
  prompt bcast me t1 l2 -> z_dead (t_z t2) = false -> t_now t0 < t_now t2 ->
  answered i h t0 t2.
Proof. exact not_lost. Qed.
Print Assumptions c130_not_lost.

Definition tx_bcast : address := mkAddr 0 0 6 [10; 0; 0; 255; 186; 192] [].
Definition tx_dev : device := mkDev (mkOid 8 1) 1476 (mkAddr 0 0 6 [10; 0; 0; 1; 186; 192] []).
Definition tx_steps (i n : nat) : list taction := repeat (TDo (ZW (WTsm (ModelTsm.AStep i)))) n.
Definition tx_id (i : nat) : list taction := tx_steps i 2 ++ TDo (ZW (WTsm (ModelTsm.AGet i None))) :: tx_steps i 2.
Definition tx_send (i : nat) : list taction := TDo (ZW (WTx i true)) :: tx_steps i 2.
Definition tx_late (i : nat) (d : Z) : list taction := [TPass d; TDo (ZW (WTsm (ModelTsm.ATimeout i)))].
Definition tx_end (i : nat) : list taction := TDo (ZW (WRet i)) :: tx_steps i 6.
Definition tx_write : ModelSystem.request := RqWrite tx_dev (mkPD (mkObj [] [] (mkOid 1 1) [mkProp 85 4294967295 (VReal 1117126656) 8])).
Definition tx_list (fuel : nat) : ModelSystem.request := RqReadMulti fuel tx_dev (mkMPD [mkObj [] [] (mkOid 0 1) [mkProp 85 4294967295 VNil 0]]).
Definition tx_cut : list Z := [129; 10; 0; 21; 1; 0; 48; 1; 14; 12; 0; 0; 0; 1; 30; 41; 85; 78; 0; 63; 31].
Definition tx_hang : list taction :=
  tx_id 0 ++ tx_send 0 ++ [TDo (ZArrive 1 (dv_addr tx_dev) tx_cut); TDo (ZDeliver 1)] ++ tx_steps 1 2 ++ [TDo (ZW (WTsm (ModelTsm.ADeliver 1 0)))].

(** The full statement of C128, for all answers, is false: after this answer the call
    does not return however long one waits. *)
Theorem c128_lists_refuted : exists bcast me l1 t0 i rq t1 l2, trun bcast me t_init l1 = Some t0 /\ texec bcast me t0 (TDo (ZRequest i rq)) = Some t1 /\
  forall d, 0 < d -> exists t2, trun bcast me t1 (l2 ++ [TPass d]) = Some t2 /\ prompt bcast me t1 (l2 ++ [TPass d]) /\ z_dead (t_z t2) = false /\
    t_now t2 - t_now t0 = d /\ returned_of i t2 = [].
Proof.
  destruct (shown tx_bcast None [TDo ZSpawn; TDo ZSpawn] (TDo (ZRequest 0 (tx_list 30))) tx_hang
    (fun t0 t1 t2 => resting (t_z t2) && (t_now t2 =? t_now t0) && match returned_of 0 t2 with [] => true | _ => false end))
    as (t0 & t1 & t2 & R0 & R1 & R2 & P0 & P & LV & C); [vm_compute; reflexivity|].
  apply andb_prop in C. destruct C as [C C3]. apply andb_prop in C. destruct C as [C1 C2]. apply Z.eqb_eq in C2.
  exists tx_bcast, None, [TDo ZSpawn; TDo ZSpawn], t0, 0%nat, (tx_list 30), t1, tx_hang. split; [exact R0|]. split; [exact R1|]. intros d D.
  destruct (rest_for _ _ _ _ _ d R2 P C1 D) as [R3 P3]. exists (later t2 d). split; [exact R3|]. split; [exact P3|]. split; [exact LV|].
  split; [cbn [later t_now]; lia|]. unfold returned_of in *. cbn [later t_z]. destruct (filter _ _); [reflexivity|discriminate C3].
Qed.
Print Assumptions c128_lists_refuted.

Definition tx_two (rq : ModelSystem.request) : list taction := tx_id 0 ++ tx_send 0 ++ tx_late 0 5000 ++ tx_send 0 ++ tx_late 0 5000 ++ tx_end 0.
(** a run that meets the hypotheses of C128: no device answers, both attempts time out,
    the call takes 10 s *)
Example c128_ex : exists t0 t1 t2, trun tx_bcast None t_init [TDo ZSpawn] = Some t0 /\ texec tx_bcast None t0 (TDo (ZRequest 0 tx_write)) = Some t1 /\
  trun tx_bcast None t1 (tx_two tx_write ++ [TPass 1001]) = Some t2 /\ prompt tx_bcast None t1 (tx_two tx_write ++ [TPass 1001]) /\ z_dead (t_z t2) = false /\
  lists tx_write = false /\ limit tx_write < t_now t2 - t_now t0 /\ exists f, returned_of 0 t2 = [f] /\ timeouts f = 2 /\ returned_of 0 t0 = [].
Proof.
  destruct (shown tx_bcast None [TDo ZSpawn] (TDo (ZRequest 0 tx_write)) (tx_two tx_write ++ [TPass 1001])
    (fun t0 t1 t2 => (limit tx_write <? t_now t2 - t_now t0) && match returned_of 0 t2, returned_of 0 t0 with [f], [] => timeouts f =? 2 | _, _ => false end))
    as (t0 & t1 & t2 & R0 & R1 & R2 & P0 & P & LV & C); [vm_compute; reflexivity|].
  apply andb_prop in C. destruct C as [C1 C2]. exists t0, t1, t2. do 6 (split; [assumption || reflexivity|]). split; [apply Z.ltb_lt; exact C1|].
  destruct (returned_of 0 t2) as [|f [|]]; try discriminate C2. destruct (returned_of 0 t0); [|discriminate C2]. exists f. split; [reflexivity|]. split; [apply Z.eqb_eq; exact C2|reflexivity].
Qed.
(** one that meets those for lists *)
Example c128_lists_ex : exists t0 t1 t2, trun tx_bcast None t_init [TDo ZSpawn] = Some t0 /\ texec tx_bcast None t0 (TDo (ZRequest 0 (tx_list 30))) = Some t1 /\
  trun tx_bcast None t1 (tx_two (tx_list 30) ++ [TPass 10001]) = Some t2 /\ prompt tx_bcast None t1 (tx_two (tx_list 30) ++ [TPass 10001]) /\ z_dead (t_z t2) = false /\
  (forall la lb ta x, tx_two (tx_list 30) ++ [TPass 10001] = la ++ lb -> trun tx_bcast None t1 la = Some ta -> nth_error (w_ph (z_w (t_z ta))) 0 = Some x -> looping x = false) /\
  limit (tx_list 30) < t_now t2 - t_now t0.
Proof.
  set (l2 := tx_two (tx_list 30) ++ [TPass 10001]).
  destruct (shown tx_bcast None [TDo ZSpawn] (TDo (ZRequest 0 (tx_list 30))) l2
    (fun t0 t1 t2 => (limit (tx_list 30) <? t_now t2 - t_now t0) &&
       forallb (fun k => match trun tx_bcast None t1 (firstn k l2) with Some ta => match nth_error (w_ph (z_w (t_z ta))) 0 with Some x => negb (looping x) | None => true end | None => true end) (seq 0 (Datatypes.S (length l2)))))
    as (t0 & t1 & t2 & R0 & R1 & R2 & P0 & P & LV & C); [vm_compute; reflexivity|].
  apply andb_prop in C. destruct C as [C1 C2]. exists t0, t1, t2. do 5 (split; [assumption|]). split; [|apply Z.ltb_lt; exact C1].
  intros la lb ta x E R N. rewrite forallb_forall in C2. specialize (C2 (length la)). rewrite E, firstn_app, Nat.sub_diag, firstn_O, app_nil_r, firstn_all, R, N in C2.
  apply negb_true_iff, C2, in_seq. rewrite app_length. lia.
Qed.
(** runs that meet the hypotheses of C129: that one, where 10 s is what the theorem says,
    and one where twenty other calls hold the ids, and the call fails after 1 s *)
Example c129_ex : exists t0 t1 t2 f, trun tx_bcast None t_init [TDo ZSpawn] = Some t0 /\ texec tx_bcast None t0 (TDo (ZRequest 0 tx_write)) = Some t1 /\
  trun tx_bcast None t1 (tx_two tx_write) = Some t2 /\ z_dead (t_z t2) = false /\ returned_of 0 t2 = [] ++ f :: returned_of 0 t0 /\
  fi_result f = CErr CTimeout /\ 5000 * timeouts f = t_now t2 - t_now t0.
Proof.
  destruct (shown tx_bcast None [TDo ZSpawn] (TDo (ZRequest 0 tx_write)) (tx_two tx_write)
    (fun t0 t1 t2 => match returned_of 0 t2, returned_of 0 t0 with [f], [] => (5000 * timeouts f =? t_now t2 - t_now t0) && match fi_result f with CErr CTimeout => true | _ => false end | _, _ => false end))
    as (t0 & t1 & t2 & R0 & R1 & R2 & P0 & P & LV & C); [vm_compute; reflexivity|].
  destruct (returned_of 0 t2) as [|f [|]] eqn:E2; try discriminate C. destruct (returned_of 0 t0) eqn:E0; [|discriminate C]. apply andb_prop in C. destruct C as [C1 C2].
  exists t0, t1, t2, f. do 4 (split; [assumption|]). split; [rewrite E2, E0; reflexivity|]. split; [|apply Z.eqb_eq; exact C1].
  destruct (fi_result f) as [|[]| |]; try discriminate C2. reflexivity.
Qed.
Definition tx_busy : list taction := repeat (TDo ZSpawn) 21 ++ flat_map (fun i => TDo (ZRequest i tx_write) :: tx_id i ++ tx_send i) (seq 0 20).
Example c129_busy_ex : exists t0 t1 t2 f, trun tx_bcast None t_init tx_busy = Some t0 /\ texec tx_bcast None t0 (TDo (ZRequest 20 tx_write)) = Some t1 /\
  trun tx_bcast None t1 (tx_late 20 1000) = Some t2 /\ z_dead (t_z t2) = false /\ returned_of 20 t2 = [] ++ f :: returned_of 20 t0 /\
  fi_result f = CErr CNoId /\ t_now t2 - t_now t0 = id_limit tx_write.
Proof.
  destruct (shown tx_bcast None tx_busy (TDo (ZRequest 20 tx_write)) (tx_late 20 1000)
    (fun t0 t1 t2 => match returned_of 20 t2, returned_of 20 t0 with [f], [] => (t_now t2 - t_now t0 =? id_limit tx_write) && match fi_result f with CErr CNoId => true | _ => false end | _, _ => false end))
    as (t0 & t1 & t2 & R0 & R1 & R2 & P0 & P & LV & C); [vm_compute; reflexivity|].
  destruct (returned_of 20 t2) as [|f [|]] eqn:E2; try discriminate C. destruct (returned_of 20 t0) eqn:E0; [|discriminate C]. apply andb_prop in C. destruct C as [C1 C2].
  exists t0, t1, t2, f. do 4 (split; [assumption|]). split; [rewrite E2, E0; reflexivity|]. split; [|apply Z.eqb_eq; exact C1].
  destruct (fi_result f) as [|[]| |]; try discriminate C2. reflexivity.
Qed.
(** runs that meet the hypotheses of C130: the acknowledgement comes after 4.999 s, and it
    comes before the call has begun to wait *)
Definition tx_ack : list Z := [129; 10; 0; 9; 1; 0; 32; 1; 15].
Definition tx_bring : list taction := TDo (ZDeliver 1) :: tx_steps 1 2 ++ [TDo (ZW (WTsm (ModelTsm.ADeliver 1 0)))] ++ tx_end 0 ++ [TPass 1].
Definition tx_sent : list taction := [TDo ZSpawn; TDo ZSpawn; TDo (ZRequest 0 tx_write)] ++ tx_id 0 ++ [TDo (ZW (WTx 0 true))].
Definition tx_waits (t : timed) : bool :=
  match nth_error (w_ph (z_w (t_z t))) 0 with
  | Some (NRecv _ 1 _ [] _ _) => (match nth_error (ModelTsm.sy_thr (w_tsm (z_w (t_z t)))) 0 with Some (ModelTsm.RecvLock 1) => true | _ => false end) || (t_now t <? t_due t 0%nat)
  | _ => false
  end.
Definition tx_good (t0 t1 t2 : timed) : bool :=
  tx_waits t0 && (t_now t0 <? t_now t2) && match returned_of 0 t2 with [f] => match fi_result f with COk AnDone => true | _ => false end | _ => false end.
Definition tx_taken (l1 l2 : list taction) : Prop :=
  exists pl t0 t1 t2 f, In (EDeliver 1 pl) (fst (handleMsg (fun _ => true) (dv_addr tx_dev) tx_ack)) /\ published (fun _ => true) [(dv_addr tx_dev, tx_ack)] = [] /\
    trun tx_bcast None t_init l1 = Some t0 /\ awaits 0 1 [] t0 /\
    texec tx_bcast None t0 (TDo (ZArrive 1 (dv_addr tx_dev) tx_ack)) = Some t1 /\ trun tx_bcast None t1 l2 = Some t2 /\ prompt tx_bcast None t1 l2 /\ z_dead (t_z t2) = false /\
    t_now t0 < t_now t2 /\ returned_of 0 t2 = [f] /\ fi_result f = COk AnDone.
Lemma tx_shown : forall l1 l2, shows tx_bcast None l1 (TDo (ZArrive 1 (dv_addr tx_dev) tx_ack)) l2 tx_good = true -> tx_taken l1 l2.
Proof.
  intros l1 l2 H. destruct (shown _ _ _ _ _ _ H) as (t0 & t1 & t2 & R0 & R1 & R2 & P0 & P & LV & C).
  unfold tx_good in C. apply andb_prop in C. destruct C as [C C3]. apply andb_prop in C. destruct C as [C1 C2].
  destruct (returned_of 0 t2) as [|f [|]] eqn:E2; try discriminate C3. exists (PBytes [32; 1; 15]), t0, t1, t2, f.
  split; [left; vm_compute; reflexivity|]. split; [vm_compute; reflexivity|]. split; [exact R0|]. split.
  - unfold tx_waits in C1. unfold awaits. destruct (nth_error (w_ph (z_w (t_z t0))) 0) as [[| | |rq id g [|]| | |]|]; try discriminate C1; destruct id as [|[| |]|]; try discriminate C1.
    do 4 eexists. split; [reflexivity|]. apply orb_prop in C1. destruct C1 as [C1|C1]; [left|right; apply Z.ltb_lt; exact C1].
    destruct (nth_error (ModelTsm.sy_thr (w_tsm (z_w (t_z t0)))) 0) as [[]|]; try discriminate C1. destruct id as [|[| |]|]; try discriminate C1. reflexivity.
  - do 4 (split; [assumption|]). split; [apply Z.ltb_lt; exact C2|]. split; [exact E2|]. destruct (fi_result f) as [[]| | |]; try discriminate C3. reflexivity.
Qed.
Example c130_ex : tx_taken (tx_sent ++ tx_steps 0 2 ++ [TPass 4999]) tx_bring.
Proof. apply tx_shown. vm_compute. reflexivity. Qed.
Example c130_early_ex : tx_taken tx_sent (tx_steps 0 2 ++ tx_bring).
Proof. apply tx_shown. vm_compute. reflexivity. Qed.
