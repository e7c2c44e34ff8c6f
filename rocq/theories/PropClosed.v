(** * C142: requests on a closed client *)
From Coq Require Import Lia.
From Verif Require Import ModelClient ModelSystem ModelScan ModelWhole ModelTime SpecSystem SpecFair SpecTime SpecClosed.
From Verif Require ModelTsm.
From Verif Require Import ProofsTimeCheck ProofsClosed.
Import ListNotations.
Open Scope Z_scope.

(** C142.  A request begun after the last successful transmission never succeeds: when it
    returns, it returns an error. *)
Theorem c142_fails : forall bcast me l1 t0 i rq t1 l2 t2 f d,
  trun bcast me t_init l1 = Some t0 -> texec bcast me t0 (TDo (ZRequest i rq)) = Some t1 -> trun bcast me t1 l2 = Some t2 ->
  z_dead (t_z t2) = false -> no_send l2 -> returned_of i t2 = d ++ f :: returned_of i t0 ->
  fi_req f = rq /\ exists e, fi_result f = CErr e.
Proof. exact closed_fails. Qed.
Print Assumptions c142_fails.

(** And it does so before the wait for an id is over: it never waits for an answer, and
    no list of answers keeps it. *)
Theorem c142_fast : forall bcast me l1 t0 i rq t1 l2 t2,
  trun bcast me t_init l1 = Some t0 -> texec bcast me t0 (TDo (ZRequest i rq)) = Some t1 -> trun bcast me t1 l2 = Some t2 ->
  prompt bcast me t1 l2 -> z_dead (t_z t2) = false -> no_send l2 -> id_limit rq < t_now t2 - t_now t0 ->
  exists f d e, returned_of i t2 = d ++ f :: returned_of i t0 /\ fi_req f = rq /\ fi_result f = CErr e.
Proof. exact closed_quick. Qed.
Print Assumptions c142_fast.

Definition cx_bcast : address := mkAddr 0 0 6 [10; 0; 0; 255; 186; 192] [].
Definition cx_dev : device := mkDev (mkOid 8 1) 1476 (mkAddr 0 0 6 [10; 0; 0; 1; 186; 192] []).
Definition cx_steps (i n : nat) : list taction := repeat (TDo (ZW (WTsm (ModelTsm.AStep i)))) n.
Definition cx_id (i : nat) : list taction := cx_steps i 2 ++ TDo (ZW (WTsm (ModelTsm.AGet i None))) :: cx_steps i 2.
Definition cx_write : ModelSystem.request := RqWrite cx_dev (mkPD (mkObj [] [] (mkOid 1 1) [mkProp 85 4294967295 (VReal 1117126656) 8])).
(** the first write is on its way when the client is closed; the second one fails twice to
    transmit *)
Definition cx_before : list taction :=
  repeat (TDo ZSpawn) 2 ++ TDo (ZRequest 0 cx_write) :: cx_id 0 ++ TDo (ZW (WTx 0 true)) :: cx_steps 0 2.
Definition cx_after : list taction := cx_id 1 ++ repeat (TDo (ZW (WTx 1 false))) 2 ++ TDo (ZW (WRet 1)) :: cx_steps 1 6.
Example c142_ex : no_send (cx_after ++ [TPass 1001]) /\ exists t0 t1 t2, trun cx_bcast None t_init cx_before = Some t0 /\ texec cx_bcast None t0 (TDo (ZRequest 1 cx_write)) = Some t1 /\
  trun cx_bcast None t1 (cx_after ++ [TPass 1001]) = Some t2 /\ prompt cx_bcast None t1 (cx_after ++ [TPass 1001]) /\ z_dead (t_z t2) = false /\
  id_limit cx_write < t_now t2 - t_now t0 /\ exists f, returned_of 1 t2 = [] ++ f :: returned_of 1 t0 /\ fi_result f = CErr CSend.
Proof.
  split.
  { intros j K. unfold cx_after, cx_id, cx_steps in K. cbn in K. repeat (destruct K as [K|K]; [discriminate K|]). exact K. }
  destruct (shown cx_bcast None cx_before (TDo (ZRequest 1 cx_write)) (cx_after ++ [TPass 1001])
    (fun t0 t1 t2 => (id_limit cx_write <? t_now t2 - t_now t0) && match returned_of 1 t2, returned_of 1 t0 with [f], [] => match fi_result f with CErr CSend => true | _ => false end | _, _ => false end))
    as (t0 & t1 & t2 & R0 & R1 & R2 & P0 & P & LV & C); [vm_compute; reflexivity|].
  apply andb_prop in C. destruct C as [C1 C2]. exists t0, t1, t2. do 5 (split; [assumption|]). split; [apply Z.ltb_lt; exact C1|].
  destruct (returned_of 1 t2) as [|f [|]]; try discriminate C2. destruct (returned_of 1 t0); [|discriminate C2]. exists f. split; [reflexivity|].
  destruct (fi_result f) as [|[]| |]; try discriminate C2. reflexivity.
Qed.
