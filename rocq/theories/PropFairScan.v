(** * C127: discovery calls in fair executions *)
From Coq Require Import Lia.
From Verif Require Import ModelClient ModelSystem ModelScan ModelWhole SpecRun SpecUtsm SpecScan SpecWire SpecLayers SpecServices SpecFair.
From Verif Require ModelTsm ModelUtsm.
From Verif Require Import ProofsFairScan.
Import ListNotations.
Open Scope Z_scope.

(** In a fair execution in which the time-out of Subscribe passes a discovery call returns
    exactly if discovery does not get stuck while the call is in Subscribe. *)
Theorem c127_exact : forall bcast me zs az n i q, execution bcast me zs az -> fair bcast me zs az -> deadlines bcast me zs az -> az n = ZScan i q ->
  ((exists m f, (n < m)%nat /\ first_found i f (y_done (z_y (zs n))) (y_done (z_y (zs m))) /\ sd_req f = q) <->
   ~ exists m, (n < m)%nat /\ (forall k, (n < k <= m)%nat -> scanning (z_y (zs k)) i) /\ SpecScan.stuck (z_y (zs m))).
Proof. exact scans_exact. Qed.
Print Assumptions c127_exact.
(** It does not if announcements come one at a time. *)
Theorem c127_scans_return_partial : forall bcast me zs az n i q, execution bcast me zs az -> fair bcast me zs az -> deadlines bcast me zs az -> gentle zs az -> az n = ZScan i q ->
  exists m f, (n < m)%nat /\ first_found i f (y_done (z_y (zs n))) (y_done (z_y (zs m))) /\ sd_req f = q.
Proof. exact gentle_return. Qed.
Print Assumptions c127_scans_return_partial.

Definition gx_bcast : address := mkAddr 0 0 6 [10; 0; 0; 255; 186; 192] [].
Definition gx_from : address := mkAddr 0 0 6 [10; 0; 0; 9; 186; 192] [].
Definition gx_iam (inst : Z) : list Z :=
  spec_bvlc 11 (spec_npdu (mkNpdu 1 None None 0 false 0 false 0 0) ++ spec_iam (mkIam (mkOid 8 inst) 1476 3 260 addr0)).
Definition gx_steps (i n : nat) : list zaction := repeat (ZY (YIn (ModelUtsm.VStep i))) n.
Definition gx_who : scan := QWho (mkWho 100 200 false 0).
Definition gx_ask : list zaction := repeat ZSpawn 3 ++ [ZScan 0 gx_who; ZY (YTx 0 true)] ++ gx_steps 0 3.
(** two devices answer while the call is busy with neither *)
Definition gx_hang : list zaction :=
  gx_ask ++ ZArrive 1 gx_from (gx_iam 150) :: gx_steps 1 6 ++ [ZDeliver 1; ZArrive 2 gx_from (gx_iam 160)] ++ gx_steps 2 3 ++
  [ZY (YIn (ModelUtsm.VTimeout 0)); ZY (YOffer 0)].
(** one answers, and the call takes the answer *)
Definition gx_well : list zaction :=
  gx_ask ++ ZArrive 1 gx_from (gx_iam 150) :: gx_steps 1 6 ++ [ZDeliver 1; ZY (YIn (ModelUtsm.VRecv 0))] ++ gx_steps 0 1 ++
  [ZY (YIn (ModelUtsm.VTimeout 0))] ++ gx_steps 0 1 ++ [ZY (YCheck 0); ZY (YOffer 0); ZY (YTake 0)].

(** The full statement, that it returns whatever arrives, is false: *)
Theorem c127_hang_refuted : exists bcast me zs az n i q, execution bcast me zs az /\ fair bcast me zs az /\ deadlines bcast me zs az /\ az n = ZScan i q /\
  forall m, y_done (z_y (zs m)) = [].
Proof.
  destruct (zrun gx_bcast None z_init gx_hang) as [z|] eqn:R; [|vm_compute in R; discriminate].
  assert (K : halting z = true /\ y_done (z_y z) = []).
  { assert (E : option_map (fun z => (halting z, y_done (z_y z))) (zrun gx_bcast None z_init gx_hang) = Some (true, [])) by (vm_compute; reflexivity).
    rewrite R in E. cbn [option_map] in E. injection E as E1 E2. auto. }
  destruct (halted_run _ _ _ _ R (halting_halted _ (proj1 K))) as (zs & az & EX & FR & DL & A & PRE & POST).
  exists gx_bcast, None, zs, az, 3%nat, 0%nat, gx_who. split; [exact EX|]. split; [exact FR|]. split; [exact DL|]. split; [apply A; reflexivity|].
  intros m. destruct (Nat.lt_ge_cases m (length gx_hang)) as [L|L]; [|destruct (POST m L) as (_ & ->); apply K].
  assert (B : forallb (fun k => match zrun gx_bcast None z_init (firstn k gx_hang) with Some z => match y_done (z_y z) with [] => true | _ => false end | None => false end)
                (seq 0 (length gx_hang)) = true) by (vm_compute; reflexivity).
  rewrite forallb_forall in B. specialize (B m). rewrite (PRE m) in B by lia. destruct (y_done (z_y (zs m))); [reflexivity|]. discriminate B. apply in_seq. lia.
Qed.
Print Assumptions c127_hang_refuted.
(** an execution that meets the hypotheses of both, with an announcement, and its result *)
Example c127_ex : exists zs az, execution gx_bcast None zs az /\ fair gx_bcast None zs az /\ deadlines gx_bcast None zs az /\ gentle zs az /\ az 3%nat = ZScan 0 gx_who /\
  az 8%nat = ZArrive 1 gx_from (gx_iam 150) /\ exists f x, y_done (z_y (zs (length gx_well))) = [f] /\ sd_result f = XDevices [x] /\ f_deviceid x = 150.
Proof.
  destruct (zrun gx_bcast None z_init gx_well) as [z|] eqn:R; [|vm_compute in R; discriminate].
  assert (K : halting z = true /\ option_map (fun r => match r with XDevices ds => map f_deviceid ds | _ => [] end) (hd_error (map sd_result (y_done (z_y z)))) = Some [150] /\ length (y_done (z_y z)) = 1%nat).
  { assert (E : option_map (fun z => (halting z, option_map (fun r => match r with XDevices ds => map f_deviceid ds | _ => [] end) (hd_error (map sd_result (y_done (z_y z)))), length (y_done (z_y z))))
        (zrun gx_bcast None z_init gx_well) = Some (true, Some [150], 1%nat)) by (vm_compute; reflexivity).
    rewrite R in E. cbn [option_map] in E. injection E as E1 E2 E3. auto. }
  destruct (halted_run _ _ _ _ R (halting_halted _ (proj1 K))) as (zs & az & EX & FR & DL & A & PRE & POST).
  exists zs, az. split; [exact EX|]. split; [exact FR|]. split; [exact DL|]. split; [|split; [apply A; reflexivity|split; [apply A; reflexivity|]]].
  - intros n i src b AZ. destruct (Nat.lt_ge_cases n (length gx_well)) as [L|L]; [|destruct (POST n L) as (E & _); congruence].
    assert (n = 8%nat) as ->.
    { assert (B : forallb (fun k => match nth_error gx_well k with Some (ZArrive _ _ _) => Nat.eqb k 8 | _ => true end) (seq 0 (length gx_well)) = true) by (vm_compute; reflexivity).
      rewrite forallb_forall in B. specialize (B n ltac:(apply in_seq; lia)). destruct (nth_error gx_well n) as [a|] eqn:N; [|apply nth_error_None in N; lia].
      rewrite <- (A n a N), AZ in B. apply Nat.eqb_eq. exact B. }
    rewrite (A 8%nat (ZArrive 1 gx_from (gx_iam 150)) eq_refl) in AZ. injection AZ as <- <- <-. right. split; [eexists; vm_compute; reflexivity|].
    pose proof (PRE 8%nat ltac:(vm_compute; lia)) as P8.
    assert (E : option_map (fun z => (y_ph (z_y z), map ModelUtsm.sb_q (ModelUtsm.u_objs (y_u (z_y z))))) (zrun gx_bcast None z_init (firstn 8 gx_well))
       = Some ([YSub gx_who (TSent false) false; YFree; YFree], [[]])) by (vm_compute; reflexivity).
    rewrite P8 in E. cbn [option_map] in E. injection E as E1 E2. split.
    + intros j ps b0. rewrite E1. destruct j as [|[|[|[|]]]]; discriminate.
    + intros s _. unfold queue. destruct (nth_error (ModelUtsm.u_objs (y_u (z_y (zs 8%nat)))) s) as [x|] eqn:N; [|reflexivity].
      apply (map_nth_error ModelUtsm.sb_q) in N. rewrite E2 in N. destruct s as [|[|]]; [injection N as <-; reflexivity|discriminate N|discriminate N].
  - specialize (PRE (length gx_well) (Nat.le_refl _)). rewrite firstn_all, R in PRE. assert (E0 : zs (length gx_well) = z) by congruence. rewrite E0. destruct K as (_ & K1 & K2).
    destruct (y_done (z_y z)) as [|f [|]]; try discriminate K2. cbn in K1. destruct (sd_result f) as [[|x [|]]| |] eqn:E; try discriminate K1. exists f, x. injection K1 as K1. auto.
Qed.
