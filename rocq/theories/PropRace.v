(** * C139: data races

    [race z a b v] (SpecRace): goroutines [a] and [b] are about to access the variable
    [v], [a] writing it, and either may go first. *)
Require Import List ZArith Bool Lia.
From Verif Require Import ModelClient ModelSystem ModelScan ModelWhole SpecSystem SpecWhole SpecRace.
From Verif Require ModelTsm ModelUtsm.
From Verif Require Import ProofsRace.
Import ListNotations.
Open Scope Z_scope.

Definition race_bcast : address := mkAddr 0 0 6 [10; 0; 0; 255; 186; 192] [].
Definition race_src : address := mkAddr 0 0 6 [10; 0; 0; 1; 186; 192] [].
Definition race_read : request :=
  RqRead (mkDev (mkOid 8 1) 1476 race_src) (mkPD (mkObj [] [] (mkOid 0 1) [mkProp 85 4294967295 VNil 0])).
Definition race_ack : list Z := [129; 10; 0; 23; 1; 0; 48; 1; 12; 12; 0; 0; 0; 1; 25; 85; 62; 68; 65; 172; 0; 0; 63].
Definition race_tsm (i n : nat) : list zaction := repeat (ZW (WTsm (ModelTsm.AStep i))) n.
(** Goroutine 0 reads a property.  The answer comes; its handler, goroutine 1, has found
    the transaction when the time-out of the request passes and the request returns.
    Goroutine 2 begins a request and gets the object back from the pool: it is about to
    write the field the handler is about to read. *)
Definition race_crossed : list zaction :=
  [ZSpawn; ZSpawn; ZSpawn; ZRequest 0 race_read] ++ race_tsm 0 2 ++ ZW (WTsm (ModelTsm.AGet 0 None)) :: race_tsm 0 2 ++
  ZW (WTx 0 true) :: race_tsm 0 2 ++
  [ZArrive 1 race_src race_ack; ZDeliver 1] ++ race_tsm 1 1 ++ [ZW (WTsm (ModelTsm.ATimeout 0)); ZW (WRet 0)] ++ race_tsm 0 6 ++
  ZRequest 2 race_read :: race_tsm 2 2 ++ [ZW (WTsm (ModelTsm.AGet 2 (Some 0%nat)))].
(** Goroutine 0 calls WhoIs; Subscribe times out before the Who-Is has gone out. *)
Definition race_whois : list zaction :=
  [ZSpawn; ZScan 0 (QWho (mkWho 100 200 false 0))] ++ repeat (ZY (YIn (ModelUtsm.VStep 0))) 3 ++ [ZY (YIn (ModelUtsm.VTimeout 0))].

Theorem c139_no_race_refuted :
  (exists bcast me l z i j o, zrun bcast me z_init l = Some z /\ z_dead z = false /\ (forall k q, ~ In (ZScan k q) l) /\ race z (Main i) (Main j) (Data o)) /\
  (exists bcast me l z i, zrun bcast me z_init l = Some z /\ z_dead z = false /\ (forall k q, ~ In (ZRequest k q) l) /\ race z (Main i) (Sender i) (Err i)).
Proof.
  split.
  - destruct (zrun race_bcast None z_init race_crossed) as [z|] eqn:E; [|vm_compute in E; discriminate].
    exists race_bcast, None, race_crossed, z, 2%nat, 1%nat, 0%nat. split; [exact E|]. vm_compute in E. injection E as <-. split; [reflexivity|].
    split; [intros k q H; repeat (destruct H as [H|H]; [discriminate H|]); exact H|]. split; [discriminate|]. exists Reads.
    split; eapply acc_data; reflexivity.
  - destruct (zrun race_bcast None z_init race_whois) as [z|] eqn:E; [|vm_compute in E; discriminate].
    exists race_bcast, None, race_whois, z, 0%nat. split; [exact E|]. vm_compute in E. injection E as <-. split; [reflexivity|].
    split; [intros k q H; repeat (destruct H as [H|H]; [discriminate H|]); exact H|]. split; [discriminate|]. exists Writes.
    split; [eapply acc_result; reflexivity|]. eapply acc_sent; reflexivity.
Qed.
Print Assumptions c139_no_race_refuted.

(** These are the only races: between a discovery call and the goroutine it started, and
    between a request that begins and the handler of an answer to a transaction that has
    been released meanwhile. *)
Theorem c139_only_two_partial : forall bcast me l z a b v, zrun bcast me z_init l = Some z -> race z a b v ->
  (exists i, v = Err i /\ (a = Main i /\ b = Sender i \/ a = Sender i /\ b = Main i))
  \/ exists o i j id id' x g, v = Data o /\ a = Main i /\ b = Main j
     /\ nth_error (ModelTsm.sy_thr (w_tsm (z_w z))) i = Some (ModelTsm.IDMake id o)
     /\ nth_error (ModelTsm.sy_thr (w_tsm (z_w z))) j = Some (ModelTsm.SendEval id' x o g)
     /\ exists c, In (ModelTsm.EClosed c id' g) (ModelTsm.sy_log (w_tsm (z_w z))).
Proof. exact races. Qed.
Print Assumptions c139_only_two_partial.

(** A client without discovery calls whose pool hands out new objects has no races. *)
Theorem c139_without_partial : forall bcast me l z a b v, zrun bcast me z_init l = Some z ->
  (forall i q, ~ In (ZScan i q) l) -> forallb (fun x => negb (pool_reuse x)) l = true -> ~ race z a b v.
Proof. exact no_races. Qed.
Print Assumptions c139_without_partial.

(** No discovery call escapes: whenever one waits and its transmission has not been
    made, its time-out brings the race. *)
Theorem c139_any_discovery_partial : forall bcast me z i q e s store, z_dead z = false ->
  nth_error (y_ph (z_y z)) i = Some (YSub q TNot e) ->
  nth_error (ModelUtsm.u_thr (y_u (z_y z))) i = Some (ModelUtsm.SubWait s store) -> ModelUtsm.u_lock (y_u (z_y z)) = None ->
  exists z', zexec bcast me z (ZY (YIn (ModelUtsm.VTimeout i))) = Some z' /\ race z' (Main i) (Sender i) (Err i).
Proof. exact scan_races. Qed.
Print Assumptions c139_any_discovery_partial.

(** two requests, the first answered and the handler of a second answer past the lookup
    when the other makes its channel: one writes its object, the other reads another *)
Example c139_ex :
  let l := [ZSpawn; ZSpawn; ZSpawn; ZRequest 0 race_read] ++ race_tsm 0 2 ++ ZW (WTsm (ModelTsm.AGet 0 None)) :: race_tsm 0 2 ++
    ZW (WTx 0 true) :: race_tsm 0 2 ++ [ZArrive 1 race_src race_ack; ZDeliver 1] ++ race_tsm 1 1 ++
    ZRequest 2 race_read :: race_tsm 2 2 ++ [ZW (WTsm (ModelTsm.AGet 2 None))] in
  forallb (fun x => negb (pool_reuse x)) l = true /\
  option_map (fun z => map data_access (ModelTsm.sy_thr (w_tsm (z_w z)))) (zrun race_bcast None z_init l) =
    Some [None; Some (0%nat, Reads); Some (1%nat, Writes)].
Proof. split; reflexivity. Qed.
(** a WhoIs in its wait, transmission outstanding: the time-out of race_whois is next *)
Example c139_ex_whois : option_map (fun z => (z_dead z, nth_error (y_ph (z_y z)) 0, nth_error (ModelUtsm.u_thr (y_u (z_y z))) 0, ModelUtsm.u_lock (y_u (z_y z))))
    (zrun race_bcast None z_init (removelast race_whois)) =
  Some (false, Some (YSub (QWho (mkWho 100 200 false 0)) TNot false), Some (ModelUtsm.SubWait 0 []), None).
Proof. reflexivity. Qed.
