(** The pipeline of the discovery command (C92).  [pexec c s ls] runs the steps [ls]
    of any interleaving of the goroutines with [c] workers. *)
From Verif Require Import ModelDiscover SpecDiscover ProofsDiscover.

(** a run with five workers (the default): one device is found and read, and its
    objects wait in the merge channel when the results are saved *)
Definition ex_lost : list plabel :=
  [LHand; LClose; LTake 0; LRead 0 (Some (mkDD 1103 0)); LSend 0; LNext 0;
   LExit 0; LExit 1; LExit 2; LExit 3; LExit 4; LWaited; LSave].

(** * C92: false.  The results are saved without waiting for the merging goroutine. *)
Theorem c92_nothing_lost_refuted : exists bs ls s rs d, pexec 5 (p_init 5 bs) ls = Some s /\ saved s = Some rs
  /\ In d (read_ok ls) /\ ~ listed d rs.
Proof.
  exists [[mkDD 1103 0]], ex_lost, (mkP (MSaved []) [] (repeat WDone 5) [mkDD 1103 0] []), [], (mkDD 1103 0).
  split; [vm_compute; reflexivity|]. split; [reflexivity|].
  split; [left; reflexivity|]. intros [].
Qed.
Print Assumptions c92_nothing_lost_refuted.
(** what is saved was read, no instance twice, and at most as many devices are lost
    as there are workers *)
Theorem c92_saved_partial : forall c bs ls s rs, pexec c (p_init c bs) ls = Some s -> saved s = Some rs ->
  NoDup (map dd_inst rs) /\ (forall d, In d rs -> In d (read_ok ls))
  /\ exists lost, (length lost <= c)%nat /\ forall d, In d (read_ok ls) -> listed d rs \/ In d lost.
Proof. exact pipeline_saved. Qed.
Print Assumptions c92_saved_partial.
Theorem c92_progress_partial : forall c bs ls s, (1 <= c)%nat -> pexec c (p_init c bs) ls = Some s -> saved s = None ->
  exists l t, pstep c s l = Some t.
Proof. exact pipeline_progress. Qed.
Print Assumptions c92_progress_partial.
Theorem c92_ends_partial : forall c bs, exists n, forall ls s, pexec c (p_init c bs) ls = Some s -> (length ls <= n)%nat.
Proof. intros c bs. exists (weight (p_init c bs)). exact (pipeline_ends c bs). Qed.
Print Assumptions c92_ends_partial.
(** no worker: the command hangs; a negative number: it panics *)
Theorem c92_no_worker_refuted : forall b bs ls s, pexec 0 (p_init 0 (b :: bs)) ls = Some s -> s = p_init 0 (b :: bs) /\ ls = [].
Proof. exact no_worker_stuck. Qed.
Print Assumptions c92_no_worker_refuted.
Theorem c92_negative_refuted : exists c, forall bs, discover_start c bs = RPanic.
Proof. exists (-1). reflexivity. Qed.
Print Assumptions c92_negative_refuted.
Example c92_ex :
  let ls := [LHand; LTake 1; LRead 1 (Some (mkDD 7 0)); LSend 1; LMerge; LRead 1 (Some (mkDD 7 1)); LSend 1; LClose; LNext 1;
             LExit 1; LMerge; LExit 0; LWaited; LSave] in
  exists s, pexec 2 (p_init 2 [[mkDD 7 0; mkDD 7 1]]) ls = Some s /\ saved s = Some [mkDD 7 0] /\ read_ok ls = [mkDD 7 0; mkDD 7 1].
Proof. cbv zeta. exists (mkP (MSaved [mkDD 7 0]) [] [WDone; WDone] [] [mkDD 7 0]). split; [vm_compute; reflexivity|]. split; reflexivity. Qed.
