(** * C126: requests return in every fair execution *)
From Coq Require Import Lia.
From Verif Require Import ModelClient ModelSystem ModelScan ModelWhole SpecSystem SpecFair SpecObs.
From Verif Require ModelTsm ModelUtsm.
From Verif Require Import ProofsHang ProofsFairWhole.
Import ListNotations.
Open Scope Z_scope.

(** Whatever the other calls, the handlers and the discovery calls do, and in whatever
    order goroutines are served: every request returns. *)
Theorem c126_requests_return_partial : forall bcast me zs az n i rq, execution bcast me zs az -> fair bcast me zs az -> az n = ZRequest i rq ->
  (lists rq = true -> forall m x, nth_error (w_ph (z_w (zs m))) i = Some x -> looping x = false) ->
  exists m f, (n < m)%nat /\ first_done i f (w_done (z_w (zs n))) (w_done (z_w (zs m))) /\ fi_req f = rq.
Proof. exact requests_return. Qed.
Print Assumptions c126_requests_return_partial.
(** It takes at most twenty steps of its own, fair or not. *)
Theorem c126_steps : forall bcast me zs az n i rq len, execution bcast me zs az -> az n = ZRequest i rq -> (20 <= own_steps i az (S n) len)%nat ->
  exists m f, (n < m <= S n + len)%nat /\ first_done i f (w_done (z_w (zs n))) (w_done (z_w (zs m))) /\ fi_req f = rq.
Proof. exact steps_bounded. Qed.
Print Assumptions c126_steps.

Definition fx_bcast : address := mkAddr 0 0 6 [10; 0; 0; 255; 186; 192] [].
Definition fx_dev : device := mkDev (mkOid 8 1) 1476 (mkAddr 0 0 6 [10; 0; 0; 1; 186; 192] []).
Definition fx_tsm (i n : nat) : list zaction := repeat (ZW (WTsm (ModelTsm.AStep i))) n.
Definition fx_id (i : nat) : list zaction := fx_tsm i 2 ++ ZW (WTsm (ModelTsm.AGet i None)) :: fx_tsm i 2.
Definition fx_try (i : nat) : list zaction := ZW (WTx i true) :: fx_tsm i 2 ++ [ZW (WTsm (ModelTsm.ATimeout i))].
Definition fx_put (i : nat) : list zaction := ZW (WRet i) :: fx_tsm i 6.
Definition fx_write : ModelSystem.request := RqWrite fx_dev (mkPD (mkObj [] [] (mkOid 1 1) [mkProp 85 4294967295 (VReal 1117126656) 8])).
Definition fx_list (fuel : nat) : ModelSystem.request := RqReadMulti fuel fx_dev (mkMPD [mkObj [] [] (mkOid 0 1) [mkProp 85 4294967295 VNil 0]]).
(** two attempts without an answer: the twenty steps *)
Definition fx_run (rq : ModelSystem.request) : list zaction := [ZSpawn; ZRequest 0 rq] ++ fx_id 0 ++ fx_try 0 ++ fx_try 0 ++ fx_put 0.
(** the answer of C30 *)
Definition fx_cut : list Z := [129; 10; 0; 21; 1; 0; 48; 1; 14; 12; 0; 0; 0; 1; 30; 41; 85; 78; 0; 63; 31].
Definition fx_hang (fuel : nat) : list zaction :=
  [ZSpawn; ZSpawn; ZRequest 0 (fx_list fuel)] ++ fx_id 0 ++ ZW (WTx 0 true) :: fx_tsm 0 2 ++
  [ZArrive 1 (dv_addr fx_dev) fx_cut; ZDeliver 1] ++ fx_tsm 1 2 ++ [ZW (WTsm (ModelTsm.ADeliver 1 0))].

(** The full statement, for all requests, is false: *)
Theorem c126_lists_refuted : exists bcast me zs az n i rq, execution bcast me zs az /\ fair bcast me zs az /\ az n = ZRequest i rq /\
  rpm_hangs (skipn 6 fx_cut) /\ (exists j src, az 11%nat = ZArrive j src fx_cut) /\ forall m, w_done (z_w (zs m)) = [].
Proof.
  destruct (zrun fx_bcast None z_init (fx_hang 30)) as [z|] eqn:R; [|vm_compute in R; discriminate].
  assert (K : resting z = true /\ w_done (z_w z) = []).
  { assert (E : option_map (fun z => (resting z, w_done (z_w z))) (zrun fx_bcast None z_init (fx_hang 30)) = Some (true, [])) by (vm_compute; reflexivity).
    rewrite R in E. cbn [option_map] in E. injection E as E1 E2. auto. }
  destruct (padded _ _ _ _ R (resting_rest _ (proj1 K))) as (zs & az & EX & FR & A & PRE & POST).
  exists fx_bcast, None, zs, az, 2%nat, 0%nat, (fx_list 30). split; [exact EX|]. split; [exact FR|]. split; [apply A; reflexivity|].
  split.
  { assert (E : check_apdu (newDecoder (skipn 6 fx_cut)) = (None, mkDec [12; 0; 0; 0; 1; 30; 41; 85; 78; 0; 63; 31] (Some 14) None)) by (vm_compute; reflexivity).
    exists (mkDec [12; 0; 0; 0; 1; 30; 41; 85; 78; 0; 63; 31] (Some 14) None). split; [exact E|].
    destruct (rpm_hangs_or_ends _ _ E) as [H|(r & H1 & H2)]; [exact H|]. exfalso. apply H1.
    rewrite <- (H2 15%nat (le_n _)). vm_compute. reflexivity. }
  split; [do 2 eexists; apply A; reflexivity|].
  intros m. destruct (Nat.lt_ge_cases m (length (fx_hang 30))) as [L|L]; [|destruct (POST m L) as (_ & _ & _ & ->); apply K].
  assert (B : forallb (fun k => match zrun fx_bcast None z_init (firstn k (fx_hang 30)) with Some z => match w_done (z_w z) with [] => true | _ => false end | None => false end)
                (seq 0 (length (fx_hang 30))) = true) by (vm_compute; reflexivity).
  rewrite forallb_forall in B. specialize (B m). rewrite (PRE m) in B by lia. destruct (w_done (z_w (zs m))); [reflexivity|]. discriminate B. apply in_seq. lia.
Qed.
Print Assumptions c126_lists_refuted.
(** two fair executions that meet the hypotheses: no device answers the call, which
    makes both its attempts *)
Example c126_ex : exists zs az, execution fx_bcast None zs az /\ fair fx_bcast None zs az /\ az 1%nat = ZRequest 0 fx_write /\ lists fx_write = false /\
  own_steps 0 az 2 20 = 20%nat.
Proof.
  destruct (zrun fx_bcast None z_init (fx_run fx_write)) as [z|] eqn:R; [|vm_compute in R; discriminate].
  assert (K : resting z = true) by (assert (E : option_map resting (zrun fx_bcast None z_init (fx_run fx_write)) = Some true) by (vm_compute; reflexivity);
    rewrite R in E; cbn [option_map] in E; injection E as E; exact E).
  destruct (padded _ _ _ _ R (resting_rest _ K)) as (zs & az & EX & FR & A & _). exists zs, az. split; [exact EX|]. split; [exact FR|]. split; [apply A; reflexivity|]. split; [reflexivity|].
  unfold own_steps. rewrite (filter_ext_in _ (fun k => z_of 0 (nth k (fx_run fx_write) ZSpawn))); [vm_compute; reflexivity|].
  intros k Hk. apply in_seq in Hk. f_equal. apply A. apply nth_error_nth'. cbn. lia.
Qed.
Example c126_lists_ex : exists zs az, execution fx_bcast None zs az /\ fair fx_bcast None zs az /\ az 1%nat = ZRequest 0 (fx_list 30) /\ lists (fx_list 30) = true /\
  forall m x, nth_error (w_ph (z_w (zs m))) 0 = Some x -> looping x = false.
Proof.
  destruct (zrun fx_bcast None z_init (fx_run (fx_list 30))) as [z|] eqn:R; [|vm_compute in R; discriminate].
  assert (K : resting z = true /\ w_ph (z_w z) = [NFree]).
  { assert (E : option_map (fun z => (resting z, w_ph (z_w z))) (zrun fx_bcast None z_init (fx_run (fx_list 30))) = Some (true, [NFree])) by (vm_compute; reflexivity).
    rewrite R in E. cbn [option_map] in E. injection E as E1 E2. auto. }
  destruct (padded _ _ _ _ R (resting_rest _ (proj1 K))) as (zs & az & EX & FR & A & PRE & POST). exists zs, az. split; [exact EX|]. split; [exact FR|].
  split; [apply A; reflexivity|]. split; [reflexivity|]. intros m x N.
  destruct (Nat.lt_ge_cases m (length (fx_run (fx_list 30)))) as [L|L].
  - assert (B : forallb (fun k => match zrun fx_bcast None z_init (firstn k (fx_run (fx_list 30))) with
        Some z => match nth_error (w_ph (z_w z)) 0 with Some x => negb (looping x) | None => true end | None => false end) (seq 0 (length (fx_run (fx_list 30)))) = true) by (vm_compute; reflexivity).
    rewrite forallb_forall in B. specialize (B m). rewrite (PRE m), N in B by lia. apply negb_true_iff, B, in_seq. lia.
  - destruct (POST m L) as (_ & _ & (k & E) & _). rewrite E, (proj2 K) in N. injection N as <-. reflexivity.
Qed.
