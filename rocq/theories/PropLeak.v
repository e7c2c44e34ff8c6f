(** * C146, and C112 once more: what discovery calls leave behind *)
From Verif Require Import ModelClient ModelSystem ModelScan ModelWhole ModelTime SpecScan SpecFair SpecTime SpecLeak.
From Verif Require ModelTsm ModelUtsm.
From Verif Require Import ProofsTimeCheck ProofsLeak.
Import ListNotations.
Open Scope Z_scope.

Definition lx_bcast : address := mkAddr 0 0 6 [10; 0; 0; 255; 186; 192] [].
Definition lx_steps (i n : nat) : list taction := repeat (TDo (ZY (YIn (ModelUtsm.VStep i)))) n.
Definition lx_begin (i : nat) (q : scan) : list taction := [TDo (ZScan i q)].
Definition lx_send (i : nat) (ok : bool) : list taction := [TDo (ZY (YTx i ok)); TDo (ZY (YOffer i))].
Definition lx_out (i : nat) : list taction := TDo (ZY (YIn (ModelUtsm.VTimeout i))) :: lx_steps i 1.
Definition lx_who : scan := QWho (mkWho 100 200 false 0).
(** a state after a run, looked at *)
Definition lx_at (l : list taction) (chk : timed -> bool) : bool := match trun lx_bcast None t_init l with Some t => chk t | None => false end.
Lemma lx_some : forall l chk, lx_at l chk = true -> exists t, trun lx_bcast None t_init l = Some t /\ chk t = true.
Proof. intros l chk H. unfold lx_at in H. destruct (trun lx_bcast None t_init l) as [t|]; [eauto|discriminate]. Qed.

(** C146, refuted.  The goroutine that sends gets to run only after Subscribe has
    returned, the transmission fails, and WhoIs returns at whois.go:68: nobody receives from
    the channel any more, the goroutine stays for good. *)
Definition lx_late : list taction :=
  TDo ZSpawn :: lx_begin 0 lx_who ++ lx_steps 0 3 ++ [TPass 2000] ++ lx_out 0 ++ lx_send 0 false ++ [TDo (ZY (YCheck 0))].
Theorem c146_left_refuted : exists bcast me l t f, trun bcast me t_init l = Some t /\ y_done (z_y (t_z t)) = [f] /\
  sd_thread f = 0%nat /\ sd_result f = XErr /\ left_behind bcast me t_init l = [0%nat].
Proof.
  destruct (lx_some lx_late (fun t => match y_done (z_y (t_z t)) with [mkSD 0 _ _ _ _ _ XErr] => true | _ => false end)) as (t & R & C); [vm_compute; reflexivity|].
  destruct (y_done (z_y (t_z t))) as [|f [|]] eqn:D; try discriminate C; [|destruct f as [[] ? ? ? ? ? []]; discriminate C]. exists lx_bcast, None, lx_late, t, f.
  split; [exact R|]. split; [exact D|]. destruct f as [[] ? ? ? ? ? []]; try discriminate C. split; [reflexivity|]. split; [reflexivity|]. vm_compute. reflexivity.
Qed.
Print Assumptions c146_left_refuted.

(** Only a WhoIs that reports that its request was not sent leaves its goroutine behind,
    once.  So WhoIsRouterToNetwork and WhatIsNetworkNumber never do, and no call does while
    the transmissions succeed. *)
Theorem c146_only_unsent_partial : forall bcast me l t, trun bcast me t_init l = Some t -> forall i,
  (count_occ Nat.eq_dec (left_behind bcast me t_init l) i <= length (filter (fun f => Nat.eqb (sd_thread f) i) (unsent t)))%nat.
Proof. exact left_only. Qed.
Print Assumptions c146_only_unsent_partial.

(** If time passes only while nothing can go on, no call leaves anything behind. *)
Theorem c146_in_time_partial : forall bcast me l t, trun bcast me t_init l = Some t -> SpecTime.prompt bcast me t_init l ->
  left_behind bcast me t_init l = [].
Proof. exact nobody_left. Qed.
Print Assumptions c146_in_time_partial.

(** A call that has returned is not subscribed any more, *)
Theorem c146_unsubscribed_partial : forall bcast me l t f, trun bcast me t_init l = Some t -> In f (y_done (z_y (t_z t))) ->
  ~ In (sd_sub f) (ModelUtsm.u_subs (y_u (z_y (t_z t)))).
Proof. exact unsubscribed. Qed.
Print Assumptions c146_unsubscribed_partial.
(** and when no call and no handler is in progress, nobody is, and the manager is not
    locked. *)
Theorem c146_clean_partial : forall bcast me l t, trun bcast me t_init l = Some t ->
  (forall i x, nth_error (y_ph (z_y (t_z t))) i = Some x -> x = YFree) ->
  ModelUtsm.u_subs (y_u (z_y (t_z t))) = [] /\ ModelUtsm.u_lock (y_u (z_y (t_z t))) = None.
Proof. exact nothing_left. Qed.
Print Assumptions c146_clean_partial.

(** C112, in time.  If time passes only while nothing can go on, WhoIs returns an error
    exactly when its request could not be sent: Subscribe does not return within 2 s, and
    the transmission has long been reported. *)
Theorem c112_in_time_partial : forall bcast me l t f, trun bcast me t_init l = Some t -> SpecTime.prompt bcast me t_init l -> In f (y_done (z_y (t_z t))) ->
  (sd_result f = XErr <-> (exists wh, sd_req f = QWho wh) /\ sd_failed f = true).
Proof. exact error_in_time. Qed.
Print Assumptions c112_in_time_partial.

(** Two WhoIs together, the request of one is not sent, then a search for routers: time
    passes only while nothing can go on, only the one reports an error, nothing is left. *)
Definition lx_run : list taction :=
  [TDo ZSpawn; TDo ZSpawn] ++ lx_begin 0 lx_who ++ lx_begin 1 lx_who ++ lx_send 0 false ++ lx_steps 0 3 ++ lx_steps 1 3 ++ lx_send 1 true ++ [TPass 2000] ++
  lx_out 1 ++ lx_out 0 ++ [TDo (ZY (YCheck 0)); TDo (ZY (YTake 0)); TDo (ZY (YCheck 1)); TDo (ZY (YTake 1))] ++
  lx_begin 1 QRouters ++ lx_steps 1 3 ++ lx_send 1 false ++ [TPass 2000] ++ lx_out 1 ++ [TDo (ZY (YCheck 1)); TDo (ZY (YTake 1))].
Example c146_ex : exists t, trun lx_bcast None t_init lx_run = Some t /\ SpecTime.prompt lx_bcast None t_init lx_run /\ t_now t = 4000 /\
  map (fun f => (sd_thread f, sd_failed f, match sd_result f with XErr => true | _ => false end)) (y_done (z_y (t_z t))) = [(1%nat, true, false); (1%nat, false, false); (0%nat, true, true)] /\
  (forall i x, nth_error (y_ph (z_y (t_z t))) i = Some x -> x = YFree).
Proof.
  destruct (lx_some lx_run (fun t => (t_now t =? 4000) && forallb (fun x => match x with YFree => true | _ => false end) (y_ph (z_y (t_z t))) &&
     match map (fun f => (sd_thread f, sd_failed f, match sd_result f with XErr => true | _ => false end)) (y_done (z_y (t_z t))) with
     | [(1%nat, true, false); (1%nat, false, false); (0%nat, true, true)] => true | _ => false end)) as (t & R & C); [vm_compute; reflexivity|].
  apply andb_prop in C. destruct C as [C C3]. apply andb_prop in C. destruct C as [C1 C2]. exists t. split; [exact R|]. split; [apply promptly_prompt; vm_compute; reflexivity|].
  split; [apply Z.eqb_eq; exact C1|]. split.
  - repeat match type of C3 with match ?l with _ => _ end = true => destruct l as [|[[? ?] ?] ?]; try discriminate C3 | _ => idtac end.
    repeat match type of C3 with context [match ?n with O => _ | S _ => _ end] => destruct n; try discriminate C3 | context [if ?b then _ else _] => destruct b; try discriminate C3 | context [match ?l with [] => _ | _ :: _ => _ end] => destruct l as [|[[? ?] ?] ?]; try discriminate C3 end. reflexivity.
  - intros i x N. rewrite forallb_forall in C2. specialize (C2 x (nth_error_In _ _ N)). destruct x; try discriminate C2. reflexivity.
Qed.
