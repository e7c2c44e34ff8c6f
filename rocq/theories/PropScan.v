(** * C109-C112: the discovery calls *)
From Coq Require Import ZArith List Bool Lia.
From Verif Require Import ModelScan SpecScan SpecClient SpecRun SpecUtsm SpecWire SpecNet SpecLayers SpecServices ProofsScan.
From Verif Require Import ModelUtsm.
Import ListNotations.
Open Scope Z_scope.

(** ** C109.  What a call returns *)
(** Every call that returned was registered for the range it asks for, under a
    subscriber of its own, and gives exactly what follows from the announcements
    made while it was registered, except that the last one in range may be missing;
    an error is only returned when the request could not be sent. *)
Theorem c109_exact : forall bcast me l w, yrun bcast me y_init l = Some w -> NoDup (map sd_sub (y_done w)) /\
  forall f, In f (y_done w) -> exists heard missed,
    In (USub (sd_thread f) (sd_sub f) (fst (asked_range (sd_req f))) (snd (asked_range (sd_req f)))) (u_log (y_u w)) /\
    In (URet (sd_thread f) (sd_sub f) (sd_store f)) (u_log (y_u w)) /\
    announced_during w f = heard ++ missed /\
    (length (filter (in_asked (sd_req f)) missed) <= 1)%nat /\
    (sd_result f = XErr /\ sd_failed f = true \/ scan_gives (sd_req f) heard (sd_result f)).
Proof. exact scan_exact. Qed.
Print Assumptions c109_exact.

(** Every device WhoIs returns announced itself in a received datagram, with an
    instance in the requested range; no device is returned twice. *)
Theorem c109_found : forall bcast me l w f wh ds, yrun bcast me y_init l = Some w -> In f (y_done w) ->
  sd_req f = QWho wh -> sd_result f = XDevices ds ->
  NoDup (map f_deviceid ds) /\
  forall x, In x ds -> exists i src b known th, In (YArrive th src b known) l /\
    In (oid_inst (i_id i), PubIAm i) (published (fun _ => known) [(src, b)]) /\
    requested_low wh <= oid_inst (i_id i) <= requested_high wh /\ x = found_of i.
Proof. exact scan_found. Qed.
Print Assumptions c109_found.

(** A call whose transmission did not fail sent its question, once. *)
Theorem c109_sent : forall bcast me l w f ip port, addr_UDPAddr bcast = Some (ip, port) -> yrun bcast me y_init l = Some w -> In f (y_done w) -> sd_failed f = false ->
  exists d, sd_sent f = Some d /\
  match sd_req f with
  | QWho wh => addr_ok (whois_dest bcast wh) -> opt_addr_ok me -> wh_low wh < 2147483648 -> wh_high wh < 2147483648 ->
      exists apdu, d = mkDgram ip port (spec_bvlc (send_func (whois_dest bcast wh) None)
        (spec_npdu (mkNpdu 1 (Some (whois_dest bcast wh)) me 0 false 0 false 0 255) ++ apdu))
      /\ forall i, requested_low wh <= i <= requested_high wh -> asks apdu i
  | QRouters => a_net bcast = 0 -> match me with Some a => a_net a = 0 | None => True end -> d = mkDgram ip port (spec_bvlc 11 [1; 128; 0])
  | QNumbers => a_net bcast = 0 -> match me with Some a => a_net a = 0 | None => True end -> d = mkDgram ip port (spec_bvlc 11 [1; 128; 18])
  end.
Proof. exact scan_asked. Qed.
Print Assumptions c109_sent.

(** A device announcing itself. *)
Definition ex_bcast : address := mkAddr 0 0 6 [10; 0; 0; 255; 186; 192] [].
Definition ex_from : address := mkAddr 0 0 6 [10; 0; 0; 9; 186; 192] [].
Definition ex_frame (inst : Z) : list Z :=
  spec_bvlc 11 (spec_npdu (mkNpdu 1 None None 0 false 0 false 0 0) ++ spec_iam (mkIam (mkOid 8 inst) 1476 3 260 addr0)).
Definition steps (i n : nat) : list yaction := repeat (YIn (VStep i)) n.
(** goroutine [i] handles it; one subscriber is registered and has room *)
Definition handled (i : nat) (inst : Z) : list yaction := YArrive i ex_from (ex_frame inst) false :: steps i 6.
(** goroutine [i] handles it; nobody is registered *)
Definition unheard (i : nat) (inst : Z) : list yaction := YArrive i ex_from (ex_frame inst) false :: steps i 2.

(** Two goroutines; WhoIs for 100..200 hears 150 and 99, times out before it takes 160
    from its channel, and a call for the routers in between. *)
Definition c109_run : list yaction :=
  [YSpawn; YSpawn; YCall 0 (QWho (mkWho 100 200 false 0)); YTx 0 true] ++ steps 0 3 ++ handled 1 150 ++ [YIn (VRecv 0)] ++ steps 0 1 ++
  (YArrive 1 ex_from (ex_frame 99) false :: steps 1 3) ++ handled 1 160 ++ [YIn (VTimeout 0)] ++ steps 0 1 ++
  [YOffer 0; YCheck 0; YTake 0; YCall 1 QRouters] ++ steps 1 3 ++ [YIn (VTimeout 1)] ++ steps 1 1 ++ [YTx 1 false; YOffer 1; YCheck 1; YTake 1].
Example c109_ex : option_map (fun w => (map (fun f => (sd_thread f, sd_failed f, sd_sub f, map fst (announced_during w f),
      match sd_result f with XDevices ds => Some (map f_deviceid ds) | XAddrs _ => None | XErr => Some [-1] end)) (y_done w)))
    (yrun ex_bcast None y_init c109_run)
  = Some [(1%nat, true, 1%nat, [], None); (0%nat, false, 0%nat, [150; 99; 160], Some [150])].
Proof. vm_compute. reflexivity. Qed.

(** ** C110.  Who answers is found *)
(** An I-Am in the requested range, completely handled after the request was sent and
    before the call returned, and the device is not returned: it was handled before
    the call registered itself. *)
Definition c110_early : list yaction :=
  [YSpawn; YSpawn; YCall 0 (QWho (mkWho 100 200 false 0)); YTx 0 true] ++ unheard 1 150 ++ steps 0 3 ++ [YIn (VTimeout 0)] ++ steps 0 1 ++
  [YOffer 0; YCheck 0; YTake 0].
(** The same for one handled just before the timeout. *)
Definition c110_late : list yaction :=
  [YSpawn; YSpawn; YCall 0 (QWho (mkWho 100 200 false 0)); YTx 0 true] ++ steps 0 3 ++ handled 1 150 ++ [YIn (VTimeout 0)] ++ steps 0 1 ++
  [YOffer 0; YCheck 0; YTake 0].
Theorem c110_answer_found_refuted : exists bcast me wh before mid after w f i src b known inst d,
  yrun bcast me y_init (before ++ [YTx 0 true] ++ mid ++ [YArrive i src b known] ++ after) = Some w /\
  y_done w = [f] /\ sd_thread f = 0%nat /\ sd_req f = QWho wh /\ sd_sent f = Some d /\ sd_failed f = false /\
  sd_result f = XDevices [] /\ requested_low wh <= inst <= requested_high wh /\
  (exists m, published (fun _ => known) [(src, b)] = [(inst, PubIAm m)] /\ oid_inst (i_id m) = inst).
Proof.
  exists ex_bcast, None, (mkWho 100 200 false 0), [YSpawn; YSpawn; YCall 0 (QWho (mkWho 100 200 false 0))], [],
    (steps 1 2 ++ steps 0 3 ++ [YIn (VTimeout 0)] ++ steps 0 1 ++ [YOffer 0; YCheck 0; YTake 0]).
  eexists _, _, 1%nat, ex_from, (ex_frame 150), false, 150, _. split; [vm_compute; reflexivity|]. repeat (split; [reflexivity|]).
  split; [vm_compute; split; discriminate|]. eexists. split; vm_compute; reflexivity.
Qed.
Print Assumptions c110_answer_found_refuted.
(** the second way *)
Theorem c110_last_found_refuted : exists bcast me l w f wh k m,
  yrun bcast me y_init l = Some w /\ y_done w = [f] /\ sd_req f = QWho wh /\ sd_failed f = false /\ sd_result f = XDevices [] /\
  announced_during w f = [(k, PubIAm m)] /\ requested_low wh <= oid_inst (i_id m) <= requested_high wh.
Proof.
  exists ex_bcast, None, c110_late. eexists _, _, (mkWho 100 200 false 0), 150, _. split; [vm_compute; reflexivity|]. repeat (split; [reflexivity|]).
  vm_compute. split; discriminate.
Qed.
Print Assumptions c110_last_found_refuted.
(** What was announced while the call was registered is found if anything else in
    range was announced afterwards. *)
Theorem c110_followed_partial : forall bcast me l w f wh ds pre i mid m post, yrun bcast me y_init l = Some w -> In f (y_done w) ->
  sd_req f = QWho wh -> sd_result f = XDevices ds ->
  announced_during w f = pre ++ (oid_inst (i_id i), PubIAm i) :: mid ++ m :: post ->
  requested_low wh <= oid_inst (i_id i) <= requested_high wh -> requested_low wh <= fst m <= requested_high wh ->
  In (oid_inst (i_id i)) (map f_deviceid ds).
Proof. exact followed_found. Qed.
Print Assumptions c110_followed_partial.
(** 150 is followed by 160 in the run of C109 *)
Example c110_ex : option_map (fun w => map (fun f => (filter (in_asked (sd_req f)) (announced_during w f), sd_req f)) (y_done w)) (yrun ex_bcast None y_init c109_run)
  = Some [([], QRouters); ([(150, PubIAm (mkIam (mkOid 8 150) 1476 3 260 ex_from)); (160, PubIAm (mkIam (mkOid 8 160) 1476 3 260 ex_from))], QWho (mkWho 100 200 false 0))].
Proof. vm_compute. reflexivity. Qed.

(** ** C111.  Calls return *)
(** Two I-Ams around the moment at which the call times out, and it never returns,
    whatever happens: nor does any other call made later. *)
Definition c111_run : list yaction :=
  [YSpawn; YSpawn; YSpawn; YCall 0 (QWho (mkWho 100 200 false 0)); YTx 0 true] ++ steps 0 3 ++ handled 1 150 ++
  [YArrive 2 ex_from (ex_frame 160) false] ++ steps 2 3 ++ [YIn (VTimeout 0)].
Theorem c111_returns_refuted : exists bcast me l w, yrun bcast me y_init l = Some w /\ y_dead w = false /\
  (forall l' w', yrun bcast me w l' = Some w' -> scanning w' 0) /\
  forall l' w' i, yrun bcast me w l' = Some w' -> scanning w' i -> forall l2 w2, yrun bcast me w' l2 = Some w2 -> scanning w2 i.
Proof.
  assert (exists w, yrun ex_bcast None y_init c111_run = Some w /\ y_dead w = false /\ stuck w /\ scanning w 0) as (w & R & D & S & Sc).
  { eexists. split; [vm_compute; reflexivity|]. split; [reflexivity|]. split; [|eexists _, _, _; reflexivity].
    exists 2%nat, 0%nat, 0%nat. eexists _, _, _, _, _. split; [reflexivity|]. split; [reflexivity|]. split; [left; reflexivity|]. split; [reflexivity|].
    split; [vm_compute; split; discriminate|]. split; [discriminate|]. left. reflexivity. }
  exists ex_bcast, None, c111_run, w. split; [exact R|]. split; [exact D|]. split.
  - intros l' w' R'. apply (stuck_run _ _ _ _ _ _ R S R'). exact Sc.
  - intros l' w' i R' Si l2 w2 R2. destruct (stuck_run _ _ _ _ _ _ R S R') as [S' _].
    assert (yrun ex_bcast None y_init (c111_run ++ l') = Some w') as R1 by (rewrite yrun_app, R; exact R').
    apply (stuck_run _ _ _ _ _ _ R1 S' R2). exact Si.
Qed.
Print Assumptions c111_returns_refuted.
(** Stuck once, stuck for ever: no call that is waiting returns. *)
Theorem c111_stuck_partial : forall bcast me l' l w w', yrun bcast me y_init l = Some w -> stuck w -> yrun bcast me w l' = Some w' ->
  stuck w' /\ forall i, scanning w i -> scanning w' i.
Proof. exact stuck_run. Qed.
Print Assumptions c111_stuck_partial.
(** That is the only way: in every other state every waiting call can still return,
    unless the handler in the middle of publishing is about to crash the process. *)
Theorem c111_returns_exact_partial : forall bcast me l w i, yrun bcast me y_init l = Some w -> y_dead w = false -> ~ stuck w -> holder_safe w -> scanning w i ->
  exists l' w' f, yrun bcast me w l' = Some w' /\ y_done w' = f :: y_done w /\ sd_thread f = i /\ forallb on_the_way l' = true.
Proof. exact call_finishes. Qed.
Print Assumptions c111_returns_exact_partial.
(** It does not happen while every announcement arrives after the one before has been
    taken by all calls waiting. *)
Theorem c111_calm_partial : forall bcast me l w, calm bcast me y_init l -> yrun bcast me y_init l = Some w -> ~ stuck w.
Proof. exact calm_free. Qed.
Print Assumptions c111_calm_partial.
(** a publication is under way, the channel is full, and the call is back at its select *)
Definition c111_run_ok : list yaction :=
  [YSpawn; YSpawn; YSpawn; YCall 0 (QWho (mkWho 100 200 false 0)); YTx 0 true] ++ steps 0 3 ++ handled 1 150 ++
  [YArrive 2 ex_from (ex_frame 160) false] ++ steps 2 3.
Example c111_ex : exists w, yrun ex_bcast None y_init c111_run_ok = Some w /\ y_dead w = false /\ ~ stuck w /\ holder_safe w /\ scanning w 0 /\
  u_lock (y_u w) = Some 2%nat /\ queue (y_u w) 0 = [0].
Proof.
  eexists. split; [vm_compute; reflexivity|]. split; [reflexivity|]. split; [|split; [|split; [eexists _, _, _; reflexivity|split; reflexivity]]].
  - intros (k & j & s & p & id & lft & x & store & Np & E & W & O & _ & Q & B).
    destruct k as [|[|[|k]]]; cbn in Np; try discriminate; try (injection Np as <-; cbn in E; discriminate); [|destruct k; discriminate].
    injection Np as <-. cbn in E. injection E as <- <-. destruct W as [<-|[]].
    destruct j as [|[|[|j]]]; cbn in B; destruct B as [B|[B _]]; try discriminate; destruct j; discriminate.
  - intros k p L. cbn in L. injection L as <-. cbn. discriminate.
Qed.
(** one announcement, taken, then another one *)
Definition c111_calm_run : list yaction :=
  [YSpawn; YSpawn; YCall 0 (QWho (mkWho 100 200 false 0)); YTx 0 true] ++ steps 0 3 ++ handled 1 150 ++ [YIn (VRecv 0)] ++ handled 1 160.
Example c111_ex_calm : calm ex_bcast None y_init c111_calm_run /\
  option_map (fun w => queue (y_u w) 0) (yrun ex_bcast None y_init c111_calm_run) = Some [1].
Proof.
  split; [|vm_compute; reflexivity].
  assert (forall w a t w', yexec ex_bcast None w a = Some w' -> match a with YArrive _ _ _ _ => False | _ => True end ->
    calm ex_bcast None w' t -> calm ex_bcast None w (a :: t)) as ST by (intros w a t w' X N C; cbn [calm]; rewrite X; destruct a; auto; destruct N).
  assert (forall w i inst t w', yexec ex_bcast None w (YArrive i ex_from (ex_frame inst) false) = Some w' ->
    (exists p, published (fun _ => false) [(ex_from, ex_frame inst)] = [p]) -> quiet w ->
    calm ex_bcast None w' t -> calm ex_bcast None w (YArrive i ex_from (ex_frame inst) false :: t)) as SA by (intros w i inst t w' X P Q C; cbn [calm]; rewrite X; auto).
  unfold c111_calm_run, handled, steps. cbn [repeat app].
  repeat (first [eapply ST; [vm_compute; reflexivity|exact I|] |
    eapply SA; [vm_compute; reflexivity|eexists; vm_compute; reflexivity
      |split; [intros [|[|[|i]]] ps b; cbn; try discriminate; destruct i; discriminate|intros s W; cbn in W; destruct W as [<-|[]]; reflexivity]|] ]).
  exact I.
Qed.

(** ** C112.  A request that could not be sent *)
(** Send fails, Subscribe overwrites the error before the goroutine reads it, and
    WhoIs returns an empty list without an error. *)
Definition c112_run : list yaction :=
  [YSpawn; YCall 0 (QWho (mkWho 100 200 false 0)); YTx 0 false] ++ steps 0 3 ++ [YIn (VTimeout 0)] ++ steps 0 1 ++ [YOffer 0; YCheck 0; YTake 0].
Theorem c112_error_reported_refuted : exists bcast me l w f, yrun bcast me y_init l = Some w /\ y_done w = [f] /\
  sd_failed f = true /\ scan_stops (sd_req f) = true /\ sd_result f = XDevices [].
Proof. exists ex_bcast, None, c112_run. eexists _, _. split; [vm_compute; reflexivity|]. repeat split. Qed.
Print Assumptions c112_error_reported_refuted.
(** WhoIsRouterToNetwork and WhatIsNetworkNumber never report it. *)
Theorem c112_silent_partial : forall bcast me l w f, yrun bcast me y_init l = Some w -> In f (y_done w) ->
  sd_req f = QRouters \/ sd_req f = QNumbers -> sd_result f <> XErr.
Proof. exact never_reported. Qed.
Print Assumptions c112_silent_partial.
(** When the goroutine that sends is not interrupted between Send and the channel,
    WhoIs returns an error exactly when the request could not be sent. *)
Theorem c112_prompt_partial : forall bcast me l w f, prompt l -> yrun bcast me y_init l = Some w -> In f (y_done w) ->
  (sd_result f = XErr <-> (exists wh, sd_req f = QWho wh) /\ sd_failed f = true).
Proof. exact prompt_who. Qed.
Print Assumptions c112_prompt_partial.
Definition c112_prompt_run (ok : bool) : list yaction :=
  [YSpawn; YCall 0 (QWho (mkWho 100 200 false 0)); YTx 0 ok; YOffer 0] ++ steps 0 3 ++ [YIn (VTimeout 0)] ++ steps 0 1 ++ [YCheck 0; YTake 0].
Example c112_ex : prompt (c112_prompt_run false) /\
  map (fun ok => option_map (fun w => map (fun f => (sd_failed f, sd_result f)) (y_done w)) (yrun ex_bcast None y_init (c112_prompt_run ok))) [true; false]
  = [Some [(false, XDevices [])]; Some [(true, XErr)]].
Proof. split; [cbn; auto|vm_compute; reflexivity]. Qed.
