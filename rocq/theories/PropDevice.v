(** Sessions with a device over a network that loses messages. *)
From Coq Require Import Lia ZifyBool String.
From Verif Require Import ModelNet SpecWire SpecLayers SpecServices SpecObs SpecClient SpecNet SpecDevice ProofsDevice PropTypes.

(** * C118 *)
(** What the calls return and the state they leave the device in is what [ought] says,
    for every device, every loss of messages, every sequence of calls. *)
Theorem c118_session : forall (S : Type) (I : S -> Prop) (M : machine S) me dev ip port net mac, dv_addr dev = mkAddr net 0 0 (ip ++ octets 2 port) [mac] ->
  is_ip ip -> is_port port -> 0 <= net < 65536 -> is_byte mac -> present me = false -> machine_ok I M ->
  forall l s, I s -> Forall (stays I) l -> session M ip port net mac me dev s l -> (what_is_seen me dev l, final_state M me dev s l) = ought M s l.
Proof. exact session_settles. Qed.
Print Assumptions c118_session.
(** and every course of calls and losses is a session *)
Theorem c118_possible : forall (S : Type) (I : S -> Prop) (M : machine S) ip port net mac me dev, machine_ok I M ->
  forall l s, I s -> Forall (fun y => op_ok (fst (fst y)) /\ is_byte (snd y)) l ->
  exists evs, Forall2 (fun y ev => exists e, ev = Call (fst (fst y)) (snd (fst y)) e (snd y)) l evs /\ session M ip port net mac me dev s evs.
Proof. exact any_session. Qed.
Print Assumptions c118_possible.

(** an analog output 1 whose default is 20.0, behind a router *)
Definition ex_host : list Z := [192; 168; 0; 7].
Definition ex_dev : device := mkDev (mkOid 8 5) 1476 (mkAddr 5 0 0 (ex_host ++ octets 2 47808) [9]).
Definition ex_ao : object_id := mkOid 1 1.
Definition ex_s : outputs := [(ex_ao, mkOut (repeat None 16) (VReal 1101004800))].
Definition ex_first (a b : fate) (k : nat) : fate := match k with O => a | S O => b | _ => NotSent end.
Lemma ex_typed : well_typed ex_s.
Proof.
  constructor; [|constructor]. split; [reflexivity|]. split; [split; [reflexivity|split; [discriminate|cbn [snd ou_default readable]; unfold in_u32; lia]]|].
  intros v H. exfalso. cbn [snd ou_slots] in H. apply repeat_spec in H. discriminate.
Qed.
(** 21.0 at priority 8: the first answer is lost, the second arrives; then it is read *)
Definition ex_w : op := OWrite ex_ao 85 whole (VReal 1101529088) 8.
Definition ex_e1 : env := env_for commandable ex_s ex_w (ex_first AnswerLost Arrived) 3.
Definition ex_s1 : outputs := [(ex_ao, mkOut (put 7 (Some (VReal 1101529088)) (repeat None 16)) (VReal 1101004800))].
Definition ex_e2 : env := env_for commandable ex_s1 (ORead ex_ao 85 whole) (ex_first Arrived NotSent) 4.
Definition ex_session : list (event outputs) :=
  [Call ex_w (ex_first AnswerLost Arrived) ex_e1 3; Call (ORead ex_ao 85 whole) (ex_first Arrived NotSent) ex_e2 4].
Lemma ex_ops : op_ok ex_w /\ op_ok (ORead ex_ao 85 whole).
Proof.
  unfold op_ok, ex_w, valid_oid, valid_property, in_u32, is_byte, whole. cbn. repeat split; try lia; intros; discriminate.
Qed.
Example c118_ex : machine_ok well_typed commandable /\ session commandable ex_host 47808 5 9 None ex_dev ex_s ex_session
  /\ what_is_seen None ex_dev ex_session = [Done; Got (answer ex_ao 85 whole (VReal 1101529088))]
  /\ final_state commandable None ex_dev ex_s ex_session = ex_s1.
Proof.
  split; [exact commandable_ok|]. assert (E1 : device_after commandable 3 ex_w (ex_first AnswerLost Arrived) (List.length (fst (perform None ex_dev ex_e1 ex_w))) ex_s = ex_s1) by (vm_compute; reflexivity).
  assert (T1 : well_typed ex_s1) by (rewrite <- E1; apply (react_stays _ well_typed); [exact commandable_ok|apply ex_ops|exact ex_typed]).
  split; [|vm_compute; split; reflexivity]. unfold ex_session. cbn [session].
  split; [apply ex_ops|]. split; [apply (env_hosts _ well_typed); [exact commandable_ok|exact ex_typed|apply ex_ops|unfold is_byte; lia]|].
  rewrite E1. split; [apply ex_ops|]. split; [|exact I]. apply (env_hosts _ well_typed); [exact commandable_ok|exact T1|apply ex_ops|unfold is_byte; lia].
Qed.

(** * C119 *)
Theorem c119_read_your_writes : forall (S : Type) (I : S -> Prop) (M : machine S) me dev ip port net mac, dv_addr dev = mkAddr net 0 0 (ip ++ octets 2 port) [mac] ->
  is_ip ip -> is_port port -> 0 <= net < 65536 -> is_byte mac -> present me = false -> machine_ok I M -> memory M ->
  forall s l1 o p idx v prio f e id l2 f' e' id', I s -> Forall (stays I) l1 ->
  session M ip port net mac me dev s (l1 ++ Call (OWrite o p idx v prio) f e id :: l2 ++ [Call (ORead o p idx) f' e' id']) ->
  snd (perform me dev e (OWrite o p idx v prio)) = Done -> Forall (fun x => ~ writes_to o p idx x) l2 -> f' O = Arrived ->
  snd (perform me dev e' (ORead o p idx)) = Got (answer o p idx (shown (SVal (meant o p v)))).
Proof. exact read_your_writes. Qed.
Print Assumptions c119_read_your_writes.
Theorem c119_write_effect : forall (S : Type) (I : S -> Prop) (M : machine S) me dev ip port net mac, dv_addr dev = mkAddr net 0 0 (ip ++ octets 2 port) [mac] ->
  is_ip ip -> is_port port -> 0 <= net < 65536 -> is_byte mac -> present me = false -> machine_ok I M -> memory M ->
  forall s l o p idx v prio f e id, I s -> Forall (stays I) l ->
  session M ip port net mac me dev s (l ++ [Call (OWrite o p idx v prio) f e id]) ->
  let before := final_state M me dev s l in let after := final_state M me dev s (l ++ [Call (OWrite o p idx v prio) f e id]) in
  (forall o' p' idx', (o', p', idx') <> (o, p, idx) -> m_read M after o' p' idx' = m_read M before o' p' idx')
  /\ (m_read M after o p idx = m_read M before o p idx \/ m_read M after o p idx = inl [SVal (meant o p v)])
  /\ (snd (perform me dev e (OWrite o p idx v prio)) = Done -> m_read M after o p idx = inl [SVal (meant o p v)]).
Proof. exact write_effect. Qed.
Print Assumptions c119_write_effect.
Theorem c119_origin : forall (S : Type) (I : S -> Prop) (M : machine S) me dev ip port net mac, dv_addr dev = mkAddr net 0 0 (ip ++ octets 2 port) [mac] ->
  is_ip ip -> is_port port -> 0 <= net < 65536 -> is_byte mac -> present me = false -> machine_ok I M -> memory M ->
  forall s l o p idx f e id r, I s -> Forall by_call l ->
  session M ip port net mac me dev s (l ++ [Call (ORead o p idx) f e id]) -> snd (perform me dev e (ORead o p idx)) = Got r ->
  (exists vs, m_read M s o p idx = inl vs /\ r = answer o p idx (one_or_list (map shown vs)))
  \/ exists v prio f' e' id', In (Call (OWrite o p idx v prio) f' e' id') l /\ r = answer o p idx (shown (SVal (meant o p v))).
Proof. exact origin. Qed.
Print Assumptions c119_origin.

(** a device of properties that can be written with what can be read back *)
Definition same_place (a b : object_id * Z * Z) : bool := oid_is (fst (fst a)) (fst (fst b)) && (snd (fst a) =? snd (fst b)) && (snd a =? snd b).
Definition store : machine (object_id * Z * Z -> option value) := mkMachine
  (fun s o p idx => match s (o, p, idx) with Some v => inl [SVal v] | None => inr (2, 32) end)
  (fun s o p idx v prio => match s (o, p, idx) with Some _ => inl (fun k => if same_place k (o, p, idx) then Some v else s k) | None => inr (2, 32) end).
Definition stored (s : object_id * Z * Z -> option value) : Prop := forall k v, s k = Some v -> readable v.
Lemma same_place_true : forall a b, same_place a b = true <-> a = b.
Proof.
  intros [[o p] i] [[o' p'] i']. unfold same_place. cbn [fst snd]. rewrite !andb_true_iff, oid_is_true, !Z.eqb_eq. split; [intros ((-> & ->) & ->); reflexivity|intro H; injection H as -> -> ->; auto].
Qed.
Lemma store_ok : machine_ok stored store /\ memory store.
Proof.
  split; split.
  - intros s o p idx H. cbn [store m_read]. destruct (s (o, p, idx)) eqn:E; [constructor; [exact (H _ _ E)|constructor]|unfold error_range; cbn [fst snd]; lia].
  - intros s o p idx v prio H Hv Hs. cbn [store m_write]. destruct (s (o, p, idx)); [|unfold error_range; cbn [fst snd]; lia].
    intros k w. destruct (same_place k (o, p, idx)); [intro Q; injection Q as <-|apply H].
    destruct v; try contradiction; try exact Hv. cbn [writable written_standard readable] in *. split; [exact Hv|lia].
  - intros s o p idx v prio s' H. cbn [store m_write m_read] in *. destruct (s (o, p, idx)); [|discriminate]. injection H as <-.
    now rewrite (proj2 (same_place_true _ _) eq_refl).
  - intros s o p idx v prio s' o' p' idx' H N. cbn [store m_write m_read] in *. destruct (s (o, p, idx)); [|discriminate]. injection H as <-.
    destruct (same_place (o', p', idx') (o, p, idx)) eqn:Q; [|reflexivity]. apply same_place_true in Q. contradiction.
Qed.
(** a description (28) of analog input 1, written with the first answer lost, then read *)
Definition ex_place : object_id * Z * Z := (mkOid 0 1, 28, whole).
Definition ex_mem : object_id * Z * Z -> option value := fun k => if same_place k ex_place then Some (VString (txt "old"%string)) else None.
Definition ex_dw : op := OWrite (mkOid 0 1) 28 whole (VString (txt "new"%string)) 0.
Definition ex_dr : op := ORead (mkOid 0 1) 28 whole.
Example c119_ex : exists e e', session store ex_host 47808 5 9 None ex_dev ex_mem
    [Call ex_dw (ex_first AnswerLost Arrived) e 3; Call ex_dr (ex_first Arrived NotSent) e' 4]
  /\ snd (perform None ex_dev e ex_dw) = Done
  /\ snd (perform None ex_dev e' ex_dr) = Got (answer (mkOid 0 1) 28 whole (VString (txt "new"%string))).
Proof.
  assert (HM : stored ex_mem).
  { intros k v. unfold ex_mem. destruct (same_place k ex_place); [intro Q; injection Q as <-|discriminate]. cbn. unfold is_byte. split; [repeat constructor; lia|lia]. }
  assert (HW : op_ok ex_dw).
  { unfold op_ok, ex_dw, valid_oid, valid_property, in_u32, is_byte, whole. cbn. split; [lia|]. split; [lia|]. split; [lia|]. split; [lia|]. split; [split; [repeat constructor; unfold is_byte; lia|lia]|].
    split; [exact I|]. split; [discriminate|]. intros l Q. injection Q as <-. cbn. lia. }
  assert (HR : op_ok ex_dr) by (unfold op_ok, ex_dr, valid_oid, valid_property, in_u32, whole; cbn; lia).
  destruct store_ok as (Hok & Hmem).
  set (e := env_for store ex_mem ex_dw (ex_first AnswerLost Arrived) 3).
  set (s1 := device_after store 3 ex_dw (ex_first AnswerLost Arrived) (List.length (fst (perform None ex_dev e ex_dw))) ex_mem).
  set (e' := env_for store s1 ex_dr (ex_first Arrived NotSent) 4).
  assert (H1 : stored s1) by (apply (react_stays _ stored); assumption).
  assert (HS : session store ex_host 47808 5 9 None ex_dev ex_mem [Call ex_dw (ex_first AnswerLost Arrived) e 3; Call ex_dr (ex_first Arrived NotSent) e' 4]).
  { cbn [session]. split; [exact HW|]. split; [apply (env_hosts _ stored); [exact Hok|exact HM|exact HW|unfold is_byte; lia]|]. fold s1.
    split; [exact HR|]. split; [|exact I]. apply (env_hosts _ stored); [exact Hok|exact H1|exact HR|unfold is_byte; lia]. }
  exists e, e'. split; [exact HS|]. assert (HD : snd (perform None ex_dev e ex_dw) = Done) by (vm_compute; reflexivity). split; [exact HD|].
  refine (c119_read_your_writes _ stored store None ex_dev ex_host 47808 5 9 eq_refl _ _ _ _ eq_refl Hok Hmem ex_mem [] (mkOid 0 1) 28 whole (VString (txt "new"%string)) 0 _ e 3 [] _ e' 4 HM _ HS HD _ eq_refl).
  - exact ex_ip.
  - unfold is_port. lia.
  - lia.
  - unfold is_byte. lia.
  - constructor.
  - constructor.
Qed.

(** * C120 *)
Theorem c120_points : forall me d ip port net mac, opened d ip port net mac -> own me -> forall l s, well_typed s ->
  point_session ip port net mac me d s l -> (points_seen me d l, points_final me d s l) = points_ought s l.
Proof. exact points_settle. Qed.
Print Assumptions c120_points.
(** a confirmed command shows, unless a higher priority holds the point *)
Theorem c120_shows : forall me d ip port net mac s p x f e id f' e' id' y, opened d ip port net mac -> own me -> well_typed s ->
  point_session ip port net mac me d s [PCall (PWrite p x) f e id; PCall (PRead p) f' e' id'] ->
  snd (point_call me d e (PWrite p x)) = Commanded -> f' O = Arrived -> at_output s (point_id p) = Some y ->
  snd (point_call me d e' (PRead p)) = Number (number_in (first_filled (firstn (Z.to_nat (effective (pt_prio p) - 1)) (ou_slots y)) (VReal x))).
Proof. exact write_shows. Qed.
Print Assumptions c120_shows.
(** a release undoes a command, whether or not the command was confirmed *)
Theorem c120_release : forall me d ip port net mac s p x f e id k f' e' id' f2 e2 id2 y, opened d ip port net mac -> own me -> well_typed s ->
  point_session ip port net mac me d s [PCall (PWrite p x) f e id; PCall (PRelease p k) f' e' id'; PCall (PRead p) f2 e2 id2] ->
  effective (pt_prio p) = k -> handled f' = true -> f2 O = Arrived ->
  at_output s (point_id p) = Some y -> nth (Z.to_nat (k - 1)) (ou_slots y) None = None ->
  snd (point_call me d e2 (PRead p)) = Number (number_in (present_value y)).
Proof. exact release_restores. Qed.
Print Assumptions c120_release.
(** calls on other points leave a point alone *)
Theorem c120_apart : forall me d ip port net mac o, opened d ip port net mac -> own me -> forall l s, well_typed s -> point_session ip port net mac me d s l ->
  Forall (fun x => match x with PCall x _ _ _ => op_point x <> o | PElsewhere _ => False end) l ->
  at_output (points_final me d s l) o = at_output s o.
Proof. exact points_untouched. Qed.
Print Assumptions c120_apart.
(** every course of calls and losses is a session *)
Theorem c120_possible : forall ip port net mac me d, opened d ip port net mac -> own me ->
  forall l s, well_typed s -> Forall (fun y => point_op_ok (fst (fst y)) /\ is_byte (snd y)) l ->
  exists evs, Forall2 (fun y ev => exists e, ev = PCall (fst (fst y)) (snd (fst y)) e (snd y)) l evs /\ point_session ip port net mac me d s evs.
Proof. exact any_points. Qed.
Print Assumptions c120_possible.

(** 21.0 at priority 8, no answer heard; released; read *)
Definition ex_p : point := mkPoint 1 1 8.
Definition ex_lost := ex_first AnswerLost RequestLost.
Definition ex_heard := ex_first Arrived NotSent.
Definition ex_p1 : env := env_for commandable ex_s (means (PWrite ex_p 1101529088)) ex_lost 3.
Definition ex_p2 : env := env_for commandable ex_s1 (means (PRelease ex_p 8)) ex_heard 4.
Definition ex_p3 : env := env_for commandable ex_s (means (PRead ex_p)) ex_heard 5.
Definition ex_p4 : env := env_for commandable ex_s (means (PWrite ex_p 1101529088)) ex_heard 6.
Definition ex_p5 : env := env_for commandable ex_s1 (means (PRead ex_p)) ex_heard 7.
Definition ex_points : list point_event :=
  [PCall (PWrite ex_p 1101529088) ex_lost ex_p1 3; PCall (PRelease ex_p 8) ex_heard ex_p2 4; PCall (PRead ex_p) ex_heard ex_p3 5;
   PCall (PWrite ex_p 1101529088) ex_heard ex_p4 6; PCall (PRead ex_p) ex_heard ex_p5 7].
Example c120_ex : opened ex_nd ex_host 47808 300 4 /\ own ex_me /\ well_typed ex_s
  /\ point_session ex_host 47808 300 4 ex_me ex_nd ex_s ex_points
  /\ points_seen ex_me ex_nd ex_points = [NoResult; Commanded; Number 1101004800; Commanded; Number 1101529088]
  /\ points_final ex_me ex_nd ex_s ex_points = ex_s1.
Proof.
  split; [exact ex_opened|]. split; [exact ex_own|]. split; [exact ex_typed|].
  assert (E1 : forall n, (n = 1 \/ n = 2)%nat -> device_after commandable 3 (means (PWrite ex_p 1101529088)) ex_lost n ex_s = ex_s1) by (intros n [-> | ->]; vm_compute; reflexivity).
  assert (T1 : well_typed ex_s1).
  { rewrite <- (E1 1%nat) by auto. apply (react_stays _ well_typed); [exact commandable_ok|apply means_ok|exact ex_typed].
    unfold point_op_ok, valid_oid, analog, is_byte, in_u32. cbn. lia. }
  assert (HW : point_op_ok (PWrite ex_p 1101529088)) by (unfold point_op_ok, valid_oid, analog, is_byte, in_u32; cbn; lia).
  assert (HR : point_op_ok (PRead ex_p)) by (unfold point_op_ok, valid_oid, analog; cbn; lia).
  assert (HL : point_op_ok (PRelease ex_p 8)) by (unfold point_op_ok, valid_oid; cbn; lia).
  split; [|vm_compute; split; reflexivity]. unfold ex_points. cbn [point_session].
  assert (X : forall s x f id, well_typed s -> point_op_ok x -> is_byte id -> hosts commandable ex_host 47808 300 4 s (means x) f (env_for commandable s (means x) f id) id)
    by (intros s x f id HT HX HB; apply (env_hosts _ well_typed); [exact commandable_ok|exact HT|apply means_ok; exact HX|exact HB]).
  split; [exact HW|]. split; [apply X; [exact ex_typed|exact HW|unfold is_byte; lia]|].
  replace (device_after commandable 3 _ _ _ ex_s) with ex_s1 by (vm_compute; reflexivity).
  split; [exact HL|]. split; [apply X; [exact T1|exact HL|unfold is_byte; lia]|].
  replace (device_after commandable 4 _ _ _ ex_s1) with ex_s by (vm_compute; reflexivity).
  split; [exact HR|]. split; [apply X; [exact ex_typed|exact HR|unfold is_byte; lia]|].
  replace (device_after commandable 5 _ _ _ ex_s) with ex_s by (vm_compute; reflexivity).
  split; [exact HW|]. split; [apply X; [exact ex_typed|exact HW|unfold is_byte; lia]|].
  replace (device_after commandable 6 _ _ _ ex_s) with ex_s1 by (vm_compute; reflexivity).
  split; [exact HR|]. split; [apply X; [exact T1|exact HR|unfold is_byte; lia]|exact I].
Qed.
