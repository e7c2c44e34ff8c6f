(** Proofs about the property names and the write command: C101-C105. *)
From Coq Require Import String Lia ZifyBool ZifyNat.
From Verif Require Import ModelCmd SpecCmd SpecNet SpecWire SpecLayers SpecServices SpecObs SpecClient ProofsWire ProofsBits ProofsServices ProofsServiceProps ProofsRecv ProofsCall ProofsRoute ProofsTypes ProofsNet.
Close Scope string_scope.
Import ListNotations.
Open Scope list_scope.
Open Scope Z_scope.

(** * Names *)
Lemma text_eqb_eq : forall a b, text_eqb a b = true <-> a = b.
Proof.
  induction a as [|x a IH]; intros [|y b]; cbn; split; intro H; try reflexivity; try discriminate.
  - apply andb_prop in H. destruct H as [H1 H2]. apply IH in H2. subst b. f_equal. lia.
  - injection H as <- <-. rewrite Z.eqb_refl. apply IH. reflexivity.
Qed.
Lemma mget_in : forall {V} (m : list (text * V)) k v, mget text_eqb k m = Some v -> In (k, v) m.
Proof.
  intros V m k v. induction m as [|[k' v'] m IH]; cbn; [discriminate|]. destruct (text_eqb k k') eqn:E.
  - intro H. injection H as <-. apply text_eqb_eq in E. subst k'. left. reflexivity.
  - intro H. right. apply IH, H.
Qed.
Lemma mget_none : forall {V} (m : list (text * V)) k, mget text_eqb k m = None -> forall v, ~ In (k, v) m.
Proof.
  intros V m k. induction m as [|[k' v'] m IH]; cbn; [intros _ v []|]. destruct (text_eqb k k') eqn:E; [discriminate|].
  intros H v [X|X]; [|exact (IH H v X)]. injection X as X _. symmetry in X. apply text_eqb_eq in X. congruence.
Qed.
Lemma names_same : forall s p, In (s, p) propertyTypeMapping <-> In (s, p) standard_properties.
Proof. intros s p. unfold propertyTypeMapping, standard_properties. cbn [map fst snd In]. tauto. Qed.
Lemma names_unique : forall s p, In (s, p) propertyTypeMapping -> mget text_eqb s propertyTypeMapping = Some p.
Proof.
  intros s p H. unfold propertyTypeMapping in H. cbn [map fst snd In] in H.
  repeat (destruct H as [H|H]; [injection H as <- <-; vm_compute; reflexivity|]). destruct H.
Qed.
Lemma get_spec : forall s, (forall p, prop_Get s = (p, true) <-> In (s, p) standard_properties)
  /\ (prop_Get s = (0, false) <-> forall p, ~ In (s, p) standard_properties).
Proof.
  intro s. unfold prop_Get. destruct (mget text_eqb s propertyTypeMapping) as [q|] eqn:E.
  - pose proof (proj1 (names_same s q) (mget_in _ _ _ E)) as I. split.
    + intro p. split; intro H.
      * injection H as <-. exact I.
      * apply names_same, names_unique in H. congruence.
    + split; intro H; [discriminate|]. exfalso. exact (H q I).
  - split.
    + intro p. split; intro H; [discriminate|]. apply names_same in H. exfalso. exact (mget_none _ _ E p H).
    + split; [|reflexivity]. intros _ p H. apply names_same in H. exact (mget_none _ _ E p H).
Qed.
Lemma names_distinct : NoDup (map fst standard_properties) /\ NoDup (map snd standard_properties).
Proof.
  split; vm_compute; repeat (constructor; [intro H; repeat (destruct H as [H|H]; [discriminate H|]); exact H|]); constructor.
Qed.
Lemma keys_spec : forall s p, In (s, p) prop_Keys <-> In (s, p) standard_properties.
Proof. intros s p. rewrite <- names_same. replace prop_Keys with propertyTypeMapping by (vm_compute; reflexivity). tauto. Qed.
Lemma string_spec : forall p, prop_String p = txt "Unknown"%string <-> ~ exists s, In (s, p) standard_properties.
Proof.
  intro p. unfold prop_String. destruct (mget Z.eqb p propertybtypestrMapping) as [s|] eqn:E.
  - split; intro H.
    + exfalso. revert E H. unfold propertybtypestrMapping. cbn [map fst snd mget].
      repeat (match goal with |- context [if ?a =? ?b then _ else _] => destruct (a =? b) eqn:? end; [intros E; injection E as <-; intro H; vm_compute in H; discriminate H|]).
      discriminate.
    + exfalso. apply H. revert E. unfold propertybtypestrMapping. cbn [map fst snd mget].
      repeat (match goal with |- context [if ?a =? ?b then _ else _] => destruct (a =? b) eqn:? end;
        [intros _; assert (X : In p (map snd standard_properties)) by (cbn; lia); apply in_map_iff in X; destruct X as ([s' p'] & E1 & E2); cbn in E1; subst p'; exists s'; exact E2|]).
      discriminate.
  - split; [|reflexivity]. intros _ (s & H). revert E. apply (in_map snd) in H. cbn [snd] in H. unfold standard_properties in H. cbn [map fst snd In] in H.
    repeat (destruct H as [H|H]; [subst p; vm_compute; discriminate|]). destruct H.
Qed.

(** * Numbers *)
Lemma numeral_digits : forall s n, numeral s n -> s <> [] /\ Forall (fun c => 48 <= c <= 57) s /\ 0 <= n /\ number s = n.
Proof.
  intros s n H. induction H as [d Hd|s n d H IH Hd].
  - split; [discriminate|]. split; [repeat constructor; lia|]. split; [lia|]. unfold number. cbn [fold_left]. lia.
  - destruct IH as (H1 & H2 & H3 & H4). split; [destruct s; discriminate|]. split; [apply Forall_app; split; [exact H2|repeat constructor; lia]|].
    split; [lia|]. unfold number in *. rewrite fold_left_app. cbn [fold_left]. rewrite H4. lia.
Qed.
Lemma atoi_numeral : forall s n, numeral s n -> n < 2 ^ 63 -> Atoi s = Some n.
Proof.
  intros s n H Hn. destruct (numeral_digits s n H) as (H1 & H2 & H3 & H4). destruct s as [|c s]; [contradiction|].
  assert (Hc : 48 <= c <= 57) by (inversion H2; assumption).
  unfold Atoi. replace (c =? 45) with false by lia. replace (c =? 43) with false by lia. cbv zeta. rewrite H4.
  replace (0 <? zlen (c :: s)) with true by (rewrite zlen_cons; pose proof (zlen_nonneg s); lia).
  replace (forallb is_digit (c :: s)) with true.
  - change (2 ^ 63) with 9223372036854775808 in Hn. replace (-9223372036854775808 <=? n) with true by lia. replace (n <=? 9223372036854775807) with true by lia. reflexivity.
  - symmetry. apply forallb_forall. intros x Hx. rewrite Forall_forall in H2. specialize (H2 x Hx). unfold is_digit. cbv beta in H2. lia.
Qed.
Lemma atoi_strange : forall s c, In c s -> ~ 48 <= c <= 57 -> c <> 43 -> c <> 45 -> Atoi s = None.
Proof.
  intros s c Hin H1 H2 H3. unfold Atoi. destruct s as [|a r]; [destruct Hin|].
  assert (X : forall l, In c l -> forallb is_digit l = false).
  { intros l Hl. destruct (forallb is_digit l) eqn:E; [|reflexivity]. rewrite forallb_forall in E. specialize (E c Hl). unfold is_digit in E. lia. }
  destruct (a =? 45) eqn:E1; [|destruct (a =? 43) eqn:E2].
  - rewrite (X r), !andb_false_r; [reflexivity|]. destruct Hin as [->|Hin]; [lia|exact Hin].
  - rewrite (X r), !andb_false_r; [reflexivity|]. destruct Hin as [->|Hin]; [lia|exact Hin].
  - rewrite (X (a :: r) Hin), !andb_false_r. reflexivity.
Qed.
Lemma name_not_number : forall s p, In (s, p) standard_properties -> Atoi s = None.
Proof.
  intros s p H. unfold standard_properties in H. cbn [map fst snd In] in H.
  repeat (destruct H as [H|H]; [injection H as <- <-; vm_compute; reflexivity|]). destruct H.
Qed.
Lemma flag_asks : forall s p, selects s p -> valid_property p -> property_flag s = p.
Proof.
  intros s p [H|H] Hp; unfold property_flag.
  - rewrite (atoi_numeral s p H) by (red in Hp; lia). red in Hp. unfold u32. lia.
  - rewrite (name_not_number s p H). rewrite (proj2 (proj1 (get_spec s) p) H). reflexivity.
Qed.
Lemma flag_unknown : forall s, unknown_name s -> property_flag s = 0.
Proof.
  intros s (H & c & H1 & H2 & H3 & H4). unfold property_flag. rewrite (atoi_strange s c H1 H2 H3 H4). rewrite (proj2 (proj2 (get_spec s)) H). reflexivity.
Qed.

(** * The write command *)
Lemma device_prop : forall p, IsDeviceProperty p = (p =? 76).
Proof. intro p. unfold IsDeviceProperty, deviceProperties. cbn [mget]. destruct (p =? 76); reflexivity. Qed.
Lemma flag_dev : forall f ip, cf_ip f = spec_dotted ip -> is_ip ip -> is_port (cf_port f) -> 0 <= cf_net f < 65536 -> is_byte (cf_mac f) ->
  dv_addr (flag_device f) = point_addr ip (cf_port f) (cf_net f) (cf_mac f).
Proof.
  intros f ip E Hi Hp Hn Hm. unfold flag_device, point_addr. cbn [dv_addr]. unfold ip2bytes. rewrite E, pack_ip by exact Hi. unfold is_port, is_byte in *.
  replace (u16 (cf_port f)) with (cf_port f) by (unfold u16; lia). replace (u16 (cf_net f)) with (cf_net f) by (unfold u16; lia).
  replace (u8 (cf_mac f)) with (cf_mac f) by (unfold u8; lia). rewrite be16_octets by assumption. reflexivity.
Qed.
Lemma asked_valid : forall f p, valid_oid (mkOid (cf_type f) (cf_inst f)) -> valid_oid (asked_object f p).
Proof. intros f p H. unfold asked_object, valid_oid in *. cbn [oid_type oid_inst] in *. destruct (p =? 76); lia. Qed.
Lemma flag_write : forall f p v, selects (cf_prop f) p -> valid_property p -> valid_oid (mkOid (cf_type f) (cf_inst f)) -> is_byte (cf_prio f) ->
  flag_data f v = write_of (asked_object f p) p (cf_index f) v (cf_prio f).
Proof.
  intros f p v Ha Hp Ho Hb. unfold flag_data, write_of, asked_object. cbv zeta. rewrite (flag_asks _ p Ha Hp), device_prop.
  unfold valid_oid, is_byte in *. cbn [oid_type oid_inst] in Ho. replace (u8 (cf_prio f)) with (cf_prio f) by (unfold u8; lia).
  replace (u32 (cf_inst f)) with (cf_inst f) by (unfold u32; lia). destruct (p =? 76); [reflexivity|]. replace (u16 (cf_type f)) with (cf_type f) by (unfold u16; lia). reflexivity.
Qed.
Lemma read_ignores : forall e me dev o p idx prio, ReadProperty e me dev (write_of o p idx VNil prio) = ReadProperty e me dev (request o p idx).
Proof. reflexivity. Qed.

(** the write, once the value is chosen *)
Lemma write_step_frames : forall e me f ip p v id, good_flags f ip p -> own me -> ev_id e = Some id -> is_byte id -> writable v -> fits v ->
  (binary_pv (asked_object f p) p = true -> v = VNull \/ exists n, v = VUint n) ->
  let w := cmd_write id f ip p v in
  (fst (write_step e me f v) = [w] \/ fst (write_step e me f v) = [w; w])
  /\ (at_sent (ev_att e 0 w) = true -> at_reply (ev_att e 0 w) = Some (PBytes (spec_simple_ack id 15)) -> write_step e me f v = ([w], COk TWritten)).
Proof.
  intros e me f ip p v id (_ & E & Hi & Hp & Hn & Hm & Ho & Hpr & Hx & Hb & Ha) Hme Hid Hidb Hw Hf Hbin w.
  destruct (write_at e me (flag_device f) ip (cf_port f) (cf_net f) (cf_mac f) (asked_object f p) p (cf_index f) v (cf_prio f)
    (flag_dev f ip E Hi Hp Hn Hm) Hi Hp Hn Hm (own_absent me Hme) (asked_valid f p Ho) Hpr Hx Hb Hw Hbin (lib_value_len _ v Hw Hf)) as [_ R].
  destruct (R id Hid Hidb) as (R1 & R2 & _). fold (cmd_write id f ip p v) in R1, R2. fold w in R1, R2.
  unfold write_step. rewrite (flag_write f p v Ha Hpr Ho Hb). split.
  - destruct (WriteProperty _ _ _ _) as [tr [| | |]]; exact R1.
  - intros Hs Hr. rewrite (R2 Hs Hr). reflexivity.
Qed.
Lemma write_step_ends : forall e me f ip p v, good_flags f ip p -> own me -> writable v -> (forall id, ev_id e = Some id -> is_byte id) ->
  (binary_pv (asked_object f p) p = true -> v = VNull \/ exists n, v = VUint n) ->
  exists t, snd (write_step e me f v) = COk t.
Proof.
  intros e me f ip p v (_ & E & Hi & Hp & Hn & Hm & Ho & Hpr & Hx & Hb & Ha) Hme Hw Hid Hbin.
  pose proof (write_total e me (flag_device f) ip (cf_port f) (cf_net f) (cf_mac f) (asked_object f p) p (cf_index f) v (cf_prio f)
    (flag_dev f ip E Hi Hp Hn Hm) Hn Hm (own_absent me Hme) (asked_valid f p Ho) Hpr Hx Hb Hw Hbin Hid) as X. cbv zeta in X.
  unfold write_step. rewrite (flag_write f p v Ha Hpr Ho Hb). destruct (WriteProperty _ _ _ _) as [tr [| | |]]; cbn [snd] in *; try (eexists; reflexivity);
  destruct X as [X|[x X]]; discriminate X.
Qed.
Lemma flag_read : forall e me f ip p vs, good_flags f ip p -> own me ->
  device_answers e ip (cf_port f) (cf_net f) (cf_mac f) (asked_object f p) p (cf_index f) vs ->
  exists id, ev_id e = Some id /\ is_byte id
  /\ ReadProperty e me (flag_device f) (flag_data f VNil) = ([cmd_read id f ip p], COk (answer (asked_object f p) p (cf_index f) (one_or_list (map shown vs)))).
Proof.
  intros e me f ip p vs (_ & E & Hi & Hp & Hn & Hm & Ho & Hpr & Hx & Hb & Ha) Hme (id & Hid & Hidb & Hv & Hs & Hr).
  rewrite (flag_write f p VNil Ha Hpr Ho Hb), read_ignores.
  destruct (read_at e me (flag_device f) ip (cf_port f) (cf_net f) (cf_mac f) (asked_object f p) p (cf_index f)
    (flag_dev f ip E Hi Hp Hn Hm) Hi Hp Hn Hm (own_absent me Hme) (asked_valid f p Ho) Hpr Hx) as [_ R].
  destruct (R id Hid Hidb) as (R1 & _ & _ & _ & R5). specialize (R5 Hs vs Hv Hr). exists id. split; [exact Hid|]. split; [exact Hidb|].
  destruct (ReadProperty _ _ _ _) as [tr r]. cbn [fst snd] in *. subst tr r. reflexivity.
Qed.
Lemma cmd_continues : forall e1 e2 me cv f ip p vs, good_flags f ip p -> own me -> cf_null f = false -> cf_value f <> [] ->
  device_answers e1 ip (cf_port f) (cf_net f) (cf_mac f) (asked_object f p) p (cf_index f) vs ->
  exists id, ev_id e1 = Some id /\ is_byte id
  /\ writeProp e1 e2 me cv f = (let r := write_step e2 me f (match converted cv vs (cf_value f) with Some x => fst x | None => VNil end) in (cmd_read id f ip p :: fst r, snd r)).
Proof.
  intros e1 e2 me cv f ip p vs G Hme Hnull Hval HA. destruct (flag_read e1 me f ip p vs G Hme HA) as (id & Hid & Hidb & E).
  exists id. split; [exact Hid|]. split; [exact Hidb|]. unfold writeProp. rewrite (proj1 G), Hnull, E. cbn [nbind first_value answer pd_object o_props pr_data].
  destruct (cf_value f) as [|c s] eqn:Ev; [contradiction|].
  replace (fst (value_flag cv (one_or_list (map shown vs)) (c :: s))) with (match converted cv vs (c :: s) with Some x => fst x | None => VNil end).
  - cbv zeta. destruct (write_step _ _ _ _) as [tr [| | |]]; reflexivity.
  - destruct vs as [|x [|y vs]]; [reflexivity| |destruct x as [[]|]; reflexivity]. cbn [map one_or_list].
    destruct x as [v|l]; [|reflexivity]. cbn [shown converted]. destruct v; cbn [as_read value_flag]; try reflexivity;
      try (destruct (cv_f32 cv (c :: s)); reflexivity); destruct (cv_f64 cv (c :: s)); reflexivity.
Qed.
Lemma converted_writable : forall cv vs s v ok, good_conv cv -> is_bytes s -> zlen s <= 60000 -> converted cv vs s = Some (v, ok) -> writable v /\ fits v.
Proof.
  intros cv vs s v ok Hc Hs Hl H. pose proof (Hc s (fst (cv_f32 cv s))) as (C1 & C2 & C3). unfold converted in H.
  destruct vs as [|[x|l] [|y r]]; try discriminate H; [|destruct x; discriminate H]. destruct x; try discriminate H; injection H as <- <-; cbn [writable fits]; try (split; [assumption|exact I]).
  split; [|exact Hl]. split; [exact Hs|]. lia.
Qed.
(** the exact behaviour of the write command against an answering device *)
Lemma cmd_written : forall e1 e2 me cv f ip p vs v ok id2, good_flags f ip p -> own me -> good_conv cv -> cf_null f = false -> cf_value f <> [] ->
  is_bytes (cf_value f) -> zlen (cf_value f) <= 60000 ->
  device_answers e1 ip (cf_port f) (cf_net f) (cf_mac f) (asked_object f p) p (cf_index f) vs ->
  converted cv vs (cf_value f) = Some (v, ok) -> (binary_pv (asked_object f p) p = true -> exists n, v = VUint n) ->
  ev_id e2 = Some id2 -> is_byte id2 ->
  exists id1, ev_id e1 = Some id1
  /\ let r := cmd_read id1 f ip p in let w := cmd_write id2 f ip p v in
     (fst (writeProp e1 e2 me cv f) = [r; w] \/ fst (writeProp e1 e2 me cv f) = [r; w; w])
     /\ (at_sent (ev_att e2 0 w) = true -> at_reply (ev_att e2 0 w) = Some (PBytes (spec_simple_ack id2 15)) -> writeProp e1 e2 me cv f = ([r; w], COk TWritten)).
Proof.
  intros e1 e2 me cv f ip p vs v ok id2 G Hme Hc Hnull Hval Hs Hl HA HC Hbin Hid2 Hidb2.
  destruct (cmd_continues e1 e2 me cv f ip p vs G Hme Hnull Hval HA) as (id1 & Hid1 & _ & E). exists id1. split; [exact Hid1|]. cbv zeta. rewrite E. cbv zeta. rewrite HC. cbn [fst snd].
  destruct (converted_writable cv vs _ v ok Hc Hs Hl HC) as [W F].
  destruct (write_step_frames e2 me f ip p v id2 G Hme Hid2 Hidb2 W F (fun B => or_intror (Hbin B))) as [R1 R2]. cbv zeta in R1, R2. split.
  - destruct R1 as [->| ->]; [left|right]; reflexivity.
  - intros Hs' Hr'. rewrite (R2 Hs' Hr'). reflexivity.
Qed.
Lemma cmd_nothing : forall e1 e2 me cv f ip p vs id2, good_flags f ip p -> own me -> cf_null f = false -> cf_value f <> [] ->
  device_answers e1 ip (cf_port f) (cf_net f) (cf_mac f) (asked_object f p) p (cf_index f) vs ->
  converted cv vs (cf_value f) = None -> ev_id e2 = Some id2 ->
  exists id1, ev_id e1 = Some id1
  /\ writeProp e1 e2 me cv f = ([cmd_read id1 f ip p], if binary_pv (asked_object f p) p then CPanic else COk (TFailed (CEnc EUnknownType))).
Proof.
  intros e1 e2 me cv f ip p vs id2 G Hme Hnull Hval HA HC Hid2.
  destruct (cmd_continues e1 e2 me cv f ip p vs G Hme Hnull Hval HA) as (id1 & Hid1 & _ & E). exists id1. split; [exact Hid1|]. rewrite E. cbv zeta. rewrite HC.
  destruct G as (_ & _ & _ & _ & _ & _ & Ho & Hpr & Hx & Hb & Ha). unfold write_step. rewrite (flag_write f p VNil Ha Hpr Ho Hb).
  destruct (binary_pv (asked_object f p) p) eqn:B.
  - rewrite (binary_write_crashes e2 me (flag_device f) id2 (asked_object f p) p (cf_index f) VNil (cf_prio f) Hid2 (asked_valid f p Ho) Hpr Hx B); [reflexivity|discriminate|discriminate].
  - rewrite (unsupported_refused e2 me (flag_device f) id2 (asked_object f p) p (cf_index f) VNil (cf_prio f) Hid2 (asked_valid f p Ho) Hpr Hx I B). reflexivity.
Qed.
Lemma cmd_null : forall e1 e2 me cv f ip p id, good_flags f ip p -> own me -> cf_null f = true -> ev_id e2 = Some id -> is_byte id ->
  let w := cmd_write id f ip p VNull in
  (fst (writeProp e1 e2 me cv f) = [w] \/ fst (writeProp e1 e2 me cv f) = [w; w])
  /\ (at_sent (ev_att e2 0 w) = true -> at_reply (ev_att e2 0 w) = Some (PBytes (spec_simple_ack id 15)) -> writeProp e1 e2 me cv f = ([w], COk TWritten)).
Proof.
  intros e1 e2 me cv f ip p id G Hme Hnull Hid Hidb w. unfold writeProp. rewrite (proj1 G), Hnull.
  exact (write_step_frames e2 me f ip p VNull id G Hme Hid Hidb I I (fun _ => or_introl eq_refl)).
Qed.
(** no answer, no write *)
Lemma cmd_no_answer : forall e1 e2 me cv f ip p, good_flags f ip p -> own me -> cf_null f = false -> device_fails e1 -> (forall id, ev_id e1 = Some id -> is_byte id) ->
  exists x, snd (writeProp e1 e2 me cv f) = CErr x
  /\ forall g, In g (fst (writeProp e1 e2 me cv f)) -> exists id, ev_id e1 = Some id /\ g = cmd_read id f ip p.
Proof.
  intros e1 e2 me cv f ip p G Hme Hnull HF Hb1. pose proof G as (Hl & E & Hi & Hp & Hn & Hm & Ho & Hpr & Hx & Hb & Ha).
  destruct (read_at e1 me (flag_device f) ip (cf_port f) (cf_net f) (cf_mac f) (asked_object f p) p (cf_index f)
    (flag_dev f ip E Hi Hp Hn Hm) Hi Hp Hn Hm (own_absent me Hme) (asked_valid f p Ho) Hpr Hx) as [N R].
  unfold writeProp. rewrite Hl, Hnull, (flag_write f p VNil Ha Hpr Ho Hb), read_ignores.
  destruct (ev_id e1) as [id|] eqn:Eid.
  - destruct (R id eq_refl (Hb1 id eq_refl)) as (R1 & R2 & R3 & R4 & _). fold (cmd_read id f ip p) in R1, R2, R3, R4.
    assert (X : exists x, snd (ReadProperty e1 me (flag_device f) (request (asked_object f p) p (cf_index f))) = CErr x).
    { destruct (HF 0%nat (cmd_read id f ip p)) as [H|[H|H]]; [congruence|eexists; exact (R2 H)|].
      destruct (at_sent (ev_att e1 0 (cmd_read id f ip p))) eqn:S; [|eexists; exact (R2 eq_refl)].
      destruct H as [H|(c & x & H)]; eexists; [exact (R3 eq_refl H)|exact (R4 eq_refl c x H)]. }
    destruct X as [x X]. destruct (ReadProperty _ _ _ _) as [tr r]. cbn [fst snd] in *. subst tr r. cbn [nbind fst snd]. exists x. split; [reflexivity|].
    intros g [<-|[]]. exists id. split; reflexivity.
  - rewrite (N eq_refl). cbn [nbind fst snd]. exists CNoId. split; [reflexivity|]. intros g [].
Qed.
Lemma cmd_no_value : forall e1 e2 me cv f ip p vs, good_flags f ip p -> own me -> cf_null f = false -> cf_value f = [] ->
  device_answers e1 ip (cf_port f) (cf_net f) (cf_mac f) (asked_object f p) p (cf_index f) vs ->
  exists id, ev_id e1 = Some id /\ writeProp e1 e2 me cv f = ([cmd_read id f ip p], CErr CNoData).
Proof.
  intros e1 e2 me cv f ip p vs G Hme Hnull Hval HA. destruct (flag_read e1 me f ip p vs G Hme HA) as (id & Hid & Hidb & E).
  exists id. split; [exact Hid|]. unfold writeProp. rewrite (proj1 G), Hnull, E, Hval. reflexivity.
Qed.
(** the octets are the standard's except for doubles *)
Lemma cmd_write_standard : forall id f ip p v, writable v -> written_standard v -> (binary_pv (asked_object f p) p = true -> v = VNull \/ exists n, v = VUint n) ->
  g_bytes (cmd_write id f ip p v) = point_frame (cf_net f) (cf_mac f) (spec_write_request id (asked_object f p) p (cf_index f) v (cf_prio f)).
Proof.
  intros id f ip p v Hw Hst Hbin. unfold cmd_write. cbn [g_bytes]. f_equal. unfold lib_write, spec_write_request.
  rewrite (proj2 (lib_value_standard (asked_object f p) p v Hw Hbin) Hst). reflexivity.
Qed.
(** a name nobody knows selects property 0 *)
Lemma cmd_unknown : forall e1 e2 me cv f, unknown_name (cf_prop f) ->
  writeProp e1 e2 me cv f = writeProp e1 e2 me cv (mkFlags (cf_list f) (cf_ip f) (cf_port f) (cf_net f) (cf_mac f) (cf_inst f) (cf_type f) [48] (cf_index f) (cf_prio f) (cf_null f) (cf_value f)).
Proof.
  intros e1 e2 me cv f H. assert (E : forall v, flag_data f v = flag_data (mkFlags (cf_list f) (cf_ip f) (cf_port f) (cf_net f) (cf_mac f) (cf_inst f) (cf_type f) [48] (cf_index f) (cf_prio f) (cf_null f) (cf_value f)) v).
  { intro v. unfold flag_data. cbn [cf_prop cf_type cf_inst cf_index cf_prio]. rewrite (flag_unknown _ H). reflexivity. }
  unfold writeProp, write_step. cbn [cf_list cf_null cf_value]. rewrite !E. 
  destruct (cf_list f); [reflexivity|]. destruct (cf_null f); [reflexivity|]. unfold nbind. destruct (ReadProperty _ _ _ _) as [tr [a| | |]]; try reflexivity.
  destruct (first_value a); [|reflexivity]. destruct (cf_value f); [reflexivity|]. rewrite E. reflexivity.
Qed.
Lemma read_crashes : forall e me d f, readProp e me d f = ([], CPanic).
Proof. reflexivity. Qed.
Lemma network_crashes : forall A (k : network -> call A), with_network k = ([], CPanic).
Proof. reflexivity. Qed.
Lemma read_end_spec : forall out, read_end out = ([], COk tt) <-> exists b l, first_value out = Some (VBits (Some b)) /\ bs_GetValue b = ROk l.
Proof.
  intro out. unfold read_end. destruct (first_value out) as [v|]; [|split; [discriminate|intros (b & l & H & _); discriminate H]].
  destruct v; try (split; [discriminate|intros (x & l' & H & _); discriminate H]). destruct b as [b|]; [|split; [discriminate|intros (x & l & H & _); discriminate H]].
  split.
  - destruct (bs_GetValue b) as [l|] eqn:E; [|discriminate]. intros _. exists b, l. split; [reflexivity|exact E].
  - intros (x & l & H & E). injection H as <-. rewrite E. reflexivity.
Qed.
Lemma wire_type_tag : forall n len r, 0 <= n < 15 -> 0 <= len -> wire_type (spec_tag 0 n len ++ r) = n.
Proof. intros n len r Hn Hl. unfold wire_type, spec_tag. replace (n <? 15) with true by lia. cbn [app hd]. destruct (len <? 5) eqn:E; lia. Qed.
Lemma usize_nonneg : forall n, 0 <= usize n.
Proof. intro n. unfold usize. pose proof (Z.log2_nonneg n). lia. Qed.
Lemma cmd_datatype : forall cv f p v s v' ok, converted cv [SVal v] s = Some (v', ok) ->
  (wire_type (lib_value (binary_pv (asked_object f p) p) v') = wire_type (spec_app v)
   <-> match v with VEnum _ => binary_pv (asked_object f p) p = true | VUint _ => binary_pv (asked_object f p) p = false | _ => True end).
Proof.
  intros cv f p v s v' ok H. set (b := binary_pv (asked_object f p) p).
  destruct v; try discriminate H; injection H as <- _; cbn [lib_value app_written].
  - destruct b; cbn [spec_app]; rewrite !wire_type_tag by (try lia; apply usize_nonneg); split; intro; lia || reflexivity || discriminate.
  - cbn [spec_app]. rewrite !wire_type_tag by lia. tauto.
  - cbn [spec_app]. rewrite !wire_type_tag by lia. tauto.
  - cbn [spec_app]. rewrite !wire_type_tag by (pose proof (zlen_nonneg l); pose proof (zlen_nonneg s); lia). tauto.
  - destruct b; cbn [spec_app]; rewrite !wire_type_tag by (try lia; apply usize_nonneg); split; intro; lia || reflexivity || discriminate.
Qed.
Lemma cmd_keeps_type : forall e1 e2 me cv f ip p v id2, good_flags f ip p -> own me -> good_conv cv -> cf_null f = false -> cf_value f <> [] ->
  is_bytes (cf_value f) -> zlen (cf_value f) <= 60000 -> number_or_text v -> (binary_pv (asked_object f p) p = true -> exists n, v = VUint n \/ v = VEnum n) ->
  device_answers e1 ip (cf_port f) (cf_net f) (cf_mac f) (asked_object f p) p (cf_index f) [SVal v] ->
  ev_id e2 = Some id2 -> is_byte id2 ->
  exists id1 v', let r := cmd_read id1 f ip p in let w := cmd_write id2 f ip p v' in
    (fst (writeProp e1 e2 me cv f) = [r; w] \/ fst (writeProp e1 e2 me cv f) = [r; w; w])
    /\ (wire_type (lib_value (binary_pv (asked_object f p) p) v') = wire_type (spec_app v)
        <-> match v with VEnum _ => binary_pv (asked_object f p) p = true | VUint _ => binary_pv (asked_object f p) p = false | _ => True end).
Proof.
  intros e1 e2 me cv f ip p v id2 G Hme Hc Hnull Hval Hs Hl Hv Hb HA Hid Hidb.
  assert (exists v' ok, converted cv [SVal v] (cf_value f) = Some (v', ok)) as (v' & ok & HC) by (destruct v; try destruct Hv; eexists _, _; reflexivity).
  destruct (cmd_written e1 e2 me cv f ip p [SVal v] v' ok id2 G Hme Hc Hnull Hval Hs Hl HA HC) as (id1 & _ & R & _); [|exact Hid|exact Hidb|].
  { intros B. destruct (Hb B) as (n & [->| ->]); cbn [converted] in HC; injection HC as <- _; eauto. }
  exists id1, v'. split; [exact R|]. exact (cmd_datatype cv f p v (cf_value f) v' ok HC).
Qed.
