(** Several properties at once. *)
From Coq Require Import Lia ZifyBool ZifyNat.
From Verif Require Import ModelNet SpecWire SpecCodec SpecLayers SpecServices SpecObs SpecClient SpecNet SpecDevice SpecSnapshot
  ProofsWire ProofsTag ProofsApp ProofsBits ProofsTrunc ProofsCodec ProofsLayers ProofsLayerProps ProofsServices ProofsMulti ProofsTerm ProofsServiceProps
  ProofsRecv ProofsCall ProofsAccess ProofsObjects ProofsTypes ProofsNames ProofsDevice.
Ltac Zify.zify_post_hook ::= Z.div_mod_to_equations.

(** ** Reading *)
Definition readings {S} (M : machine S) (s : S) (o : object_id) (y : Z * Z) : option property :=
  match m_read M s o (fst y) (snd y) with inl vs => Some (mkProp (fst y) (snd y) (one_or_list (map shown vs)) 0) | inr _ => None end.
Lemma item_ok : forall (S : Type) (I : S -> Prop) (M : machine S) s o y, machine_ok I M -> I s -> in_u32 (fst y) -> in_u32 (snd y) ->
  match item M s o y with
  | inl r => result_ok r /\ readings M s o y = Some (shown_result r)
  | inr x => failure_ok x /\ readings M s o y = None
  end.
Proof.
  intros S I M s o y (MR & _) HI H1 H2. unfold item, readings. specialize (MR s o (fst y) (snd y) HI). destruct (m_read M s o (fst y) (snd y)) as [vs|[c k]].
  - split; [|reflexivity]. unfold result_ok. cbn [rs_prop rs_index rs_values]. auto.
  - split; [|reflexivity]. unfold failure_ok, error_range, in_u32 in *. cbn [fl_prop fl_index fl_class fl_code fst snd] in *. lia.
Qed.
Lemma items_one : forall (S : Type) (I : S -> Prop) (M : machine S) s o ys, machine_ok I M -> I s -> Forall (fun p => in_u32 (fst p) /\ in_u32 (snd p)) ys ->
  match each (readings M s o) ys with
  | Some ps => exists rs, Forall result_ok rs /\ map (item M s o) ys = map inl rs /\ ps = map shown_result rs
  | None => exists rs x rest, Forall result_ok rs /\ failure_ok x /\ map (item M s o) ys = map inl rs ++ inr x :: rest
  end.
Proof.
  intros S I M s o ys HM HI. induction 1 as [|y ys (H1 & H2) HF IH]; cbn [each map].
  - exists []. split; [constructor|]. split; reflexivity.
  - pose proof (item_ok S I M s o y HM HI H1 H2) as K. destruct (item M s o y) as [r|x]; destruct K as (K & ->).
    + destruct (each (readings M s o) ys) as [ps|].
      * destruct IH as (rs & A & B & C). exists (r :: rs). split; [constructor; assumption|]. cbn [map]. rewrite B, C. split; reflexivity.
      * destruct IH as (rs & x & rest & A & B & C). exists (r :: rs), x, rest. split; [constructor; assumption|]. split; [exact B|]. cbn [map app]. now rewrite C.
    + exists [], x, (map (item M s o) ys). split; [constructor|]. split; [exact K|]. reflexivity.
Qed.
Lemma inl_items : forall rs, flat_map spec_item (map inl rs) = flat_map spec_result rs.
Proof. induction rs as [|r rs IH]; [reflexivity|]. cbn [map flat_map spec_item]. now rewrite IH. Qed.
Lemma answer_shape : forall (S : Type) (I : S -> Prop) (M : machine S) s id xs, machine_ok I M -> I s -> reads_ok xs ->
  match snapshot M s xs with
  | Some objs => exists ys, Forall access_ok ys /\ flat_map spec_items (items M s xs) = flat_map spec_access ys /\ objs = map shown_access ys
  | None => exists ys o rs x rest, Forall access_ok ys /\ valid_oid o /\ Forall result_ok rs /\ failure_ok x
       /\ spec_multi_answer M s id xs = spec_failing_ack id ys o rs x rest
  end.
Proof.
  intros S I M s id xs HM HI HX. unfold spec_multi_answer.
  assert (K : match snapshot M s xs with
  | Some objs => exists ys, Forall access_ok ys /\ flat_map spec_items (items M s xs) = flat_map spec_access ys /\ objs = map shown_access ys
  | None => exists ys o rs x rest, Forall access_ok ys /\ valid_oid o /\ Forall result_ok rs /\ failure_ok x
       /\ flat_map spec_items (items M s xs) = flat_map spec_access ys ++ spec_ctx_oid 0 o ++ spec_open 1 ++ flat_map spec_result rs ++ spec_failure x ++ rest
  end).
  { unfold snapshot. induction HX as [|[o ys] xs (Ho & Hne & Hy) HX IH]; cbn [each items map flat_map].
    - exists []. split; [constructor|]. split; reflexivity.
    - cbn [fst snd] in *. pose proof (items_one S I M s o ys HM HI Hy) as K. change (each _ ys) with (each (readings M s o) ys).
      destruct (each (readings M s o) ys) as [ps|]; cbn [option_map].
      + destruct K as (rs & A & B & C). assert (AO : access_ok (o, rs)).
        { split; [exact Ho|]. split; [|exact A]. cbn [snd]. destruct rs; [|discriminate]. destruct ys; [contradiction|discriminate]. }
        assert (E1 : spec_items (o, map (item M s o) ys) = spec_access (o, rs)) by (unfold spec_items, spec_access; cbn [fst snd]; rewrite B, inl_items; reflexivity).
        unfold items in IH. destruct (each _ xs) as [objs|].
        * destruct IH as (zs & D & E & F). exists ((o, rs) :: zs). split; [constructor; assumption|]. rewrite E1, E, F, C. split; reflexivity.
        * destruct IH as (zs & o' & rs' & x & rest & D & D2 & D3 & D4 & E). exists ((o, rs) :: zs), o', rs', x, rest.
          split; [constructor; assumption|]. split; [exact D2|]. split; [exact D3|]. split; [exact D4|]. rewrite E1, E. cbn [flat_map]. now rewrite <- app_assoc.
      + destruct K as (rs & x & rest & A & B & C). exists [], o, rs, x, (flat_map spec_item rest ++ spec_close 1 ++ flat_map spec_items (items M s xs)).
        split; [constructor|]. split; [exact Ho|]. split; [exact A|]. split; [exact B|].
        unfold spec_items at 1. cbn [fst snd flat_map]. rewrite C, flat_map_app, inl_items. cbn [flat_map spec_item]. rewrite <- !app_assoc. reflexivity. }
  destruct (snapshot M s xs); [exact K|]. destruct K as (ys & o & rs & x & rest & A & B & C & D & E). exists ys, o, rs, x, rest.
  split; [exact A|]. split; [exact B|]. split; [exact C|]. split; [exact D|]. rewrite E. reflexivity.
Qed.
Lemma arrived_ack : forall known src fn n id svc w reply, frame_func fn -> npdu_ok n -> n_netmsg n = false ->
  In (EDeliver id reply) (fst (handleMsg known src (spec_bvlc fn (spec_npdu n ++ spec_complex_ack id svc ++ w)))) -> reply = PBytes (spec_complex_ack id svc ++ w).
Proof.
  intros known src fn n id svc w reply Hf Hn Hm H. unfold spec_complex_ack in *. cbn [app] in *.
  rewrite recv_ack in H; try assumption; [|unfold is_byte; lia|right; reflexivity]. cbn [fst In] in H. destruct H as [H|[]]. congruence.
Qed.
Lemma multi_read : forall (S : Type) (I : S -> Prop) (M : machine S) fuel e me dev ip port hdr id st xs f, reached dev ip port hdr -> present me = false ->
  machine_ok I M -> (forall k, I (st k)) -> reads_ok xs ->
  dv_maxapdu dev <= 65531 -> zlen hdr + zlen (spec_readmulti_request id xs) <= dv_maxapdu dev ->
  hosts_reads M ip port hdr fuel st xs f e id ->
  let g := mkDgram ip port (frame_with hdr (spec_readmulti_request id xs)) in
  let r := ReadMultiProperty fuel e me dev (mkMPD (map read_object xs)) in
  match brings M st xs f 0, brings M st xs f 1 with
  | Some objs, _ => r = ([g], COk objs)
  | None, Some objs => r = ([g; g], COk objs)
  | None, None => exists x, r = ([g; g], CErr x)
  end.
Proof.
  intros S I M fuel e me dev ip port hdr id st xs f Hl Hm HM HI HX Hmx Hsz (Hid & Hb & HA). cbv zeta in *.
  set (g := mkDgram ip port (frame_with hdr (spec_readmulti_request id xs))) in *.
  pose proof (zlen_nonneg (spec_readmulti_request id xs)) as Hnn. destruct (reached_facts _ _ _ _ Hl) as (HU & Hfu & _ & _ & _ & HH & _).
  assert (HX' : Forall (fun x => valid_oid (fst x) /\ Forall (fun p => in_u32 (fst p) /\ in_u32 (snd p)) (snd x)) xs) by (eapply Forall_impl; [|exact HX]; cbv beta; tauto).
  assert (EX : forall k, exchange e k (addr_SetLength (dv_addr dev)) (hdr ++ spec_readmulti_request id xs)
     = ([g], if at_sent (ev_att e k g) then match at_reply (ev_att e k g) with Some p => inr p | None => inl CTimeout end else inl CSend)).
  { intro k. unfold exchange, send_dgram. rewrite HU, frame_small, Hfu by (rewrite zlen_app; lia). fold (frame_with hdr (spec_readmulti_request id xs)). fold g. cbv zeta. destruct (at_sent _); [destruct (at_reply _)|]; reflexivity. }
  assert (E0 : ReadMultiProperty fuel e me dev (mkMPD (map read_object xs)) = rpm_loop fuel 2 0 e (addr_SetLength (dv_addr dev)) (hdr ++ spec_readmulti_request id xs) CNoData).
  { unfold ReadMultiProperty. rewrite Hid, (via_header _ _ _ _ _ Hl Hm). replace (dv_maxapdu dev =? 0) with false by lia.
    replace (u8 id) with id by (unfold u8; unfold is_byte in Hb; lia). rewrite enc_readmulti by assumption. cbn [ebuf].
    replace (dv_maxapdu dev <? _) with false; [reflexivity|]. rewrite zlen_app. unfold u32. rewrite Z.mod_small by lia. lia. }
  assert (STEP : forall k n last, match brings M st xs f k with
    | Some objs => rpm_loop fuel (Datatypes.S n) k e (addr_SetLength (dv_addr dev)) (hdr ++ spec_readmulti_request id xs) last = ([g], COk objs)
    | None => exists last', rpm_loop fuel (Datatypes.S n) k e (addr_SetLength (dv_addr dev)) (hdr ++ spec_readmulti_request id xs) last
               = (let '(tr', r') := rpm_loop fuel n (Datatypes.S k) e (addr_SetLength (dv_addr dev)) (hdr ++ spec_readmulti_request id xs) last' in ([g] ++ tr', r'))
    end).
  { intros k n last. specialize (HA k). unfold brings. cbn [rpm_loop]. rewrite EX. destruct (f k).
    - rewrite HA. eexists. reflexivity.
    - destruct HA as (-> & ->). eexists. reflexivity.
    - destruct HA as (-> & ->). eexists. reflexivity.
    - destruct HA as (-> & Hfl & known & src & fn & np & reply & Hf & Hn & Hnm & -> & Hd). unfold spec_multi_answer in Hd.
      apply arrived_ack in Hd; [|assumption..]. subst reply. change (spec_complex_ack id 14 ++ flat_map spec_items (items M (st k) xs)) with (spec_multi_answer M (st k) id xs).
      pose proof (answer_shape S I M (st k) id xs HM (HI k) HX) as K. destruct (snapshot M (st k) xs) as [objs|].
      + destruct K as (ys & A & B & C). assert (EQ : spec_multi_answer M (st k) id xs = spec_readmulti_ack id ys) by (unfold spec_multi_answer; rewrite B; reflexivity).
        rewrite EQ in *. destruct (readmulti_ack id ys A) as (d1 & E1 & E2). destruct (E2 fuel Hfl) as (d2 & E3). rewrite E1, E3, C. reflexivity.
      + destruct K as (ys & o & rs & x & rest & A & B & C & D & EQ). rewrite EQ in *. destruct (failing_ack id ys o rs x rest A B C D) as (d1 & E1 & E2).
        destruct (E2 fuel Hfl) as (objs & d2 & E3). rewrite E1, E3. eexists. reflexivity. }
  rewrite E0. pose proof (STEP 0%nat 1%nat CNoData) as S0. destruct (brings M st xs f 0) as [objs|]; [exact S0|]. destruct S0 as (last & ->).
  pose proof (STEP 1%nat 0%nat last) as S1. destruct (brings M st xs f 1) as [objs|]; [rewrite S1; reflexivity|]. destruct S1 as (last' & ->). eexists. reflexivity.
Qed.

(** ** Writing *)
Lemma told_moved : forall (S : Type) (M : machine S) id xs s, fst (react_writes M id xs s) = fst (carry_out M s (flat_writes xs)).
Proof. intros. unfold react_writes. destruct (carry_out M s (flat_writes xs)) as [s' [[[o w] [c k]]|]]; reflexivity. Qed.
Lemma carry_range : forall (S : Type) (I : S -> Prop) (M : machine S) l s, machine_ok I M -> I s ->
  Forall (fun y => writable (wt_value (snd y)) /\ written_standard (wt_value (snd y))) l ->
  I (fst (carry_out M s l)) /\ match snd (carry_out M s l) with Some (_, _, x) => error_range x | None => True end.
Proof.
  intros S I M l s HM HI H. revert s HI. induction H as [|[o w] l (H1 & H2) HF IH]; intros s HI; cbn [carry_out]; [split; [exact HI|exact Logic.I]|].
  pose proof (proj2 HM s o (wt_prop w) (wt_index w) (wt_value w) (wt_prio w) HI H1 H2) as K. destruct (m_write _ _ _ _ _ _ _) as [s'|x]; [apply IH; exact K|].
  cbn [fst snd]. split; [exact HI|exact K].
Qed.
Lemma writes_flat : forall xs, writes_ok xs -> Forall (fun y => writable (wt_value (snd y)) /\ written_standard (wt_value (snd y))) (flat_writes xs).
Proof.
  induction 1 as [|[o ws] xs (_ & H1 & H2) HF IH]; [constructor|]. unfold flat_writes. cbn [flat_map fst snd]. apply Forall_app. split; [|exact IH].
  cbn [fst snd] in *. apply Forall_map. rewrite Forall_forall in *. intros w Hw. cbn [snd]. split; [apply (H1 w Hw)|apply (H2 w Hw)].
Qed.
Lemma multi_write : forall (S : Type) (I : S -> Prop) (M : machine S) e me dev ip port id s xs f, local dev ip port -> present me = false ->
  machine_ok I M -> I s -> writes_ok xs ->
  dv_maxapdu dev <= 65531 -> 2 + zlen (spec_writemulti_request id xs) <= dv_maxapdu dev ->
  hosts_writes M ip port s xs f e id ->
  let r := WriteMultiProperty e me dev (mkMPD (map write_object xs)) in
  (match snd r with COk _ => true | _ => false end, told_after M id xs f (length (fst r)) s) = settles_writes M s xs f
  /\ (snd r = COk tt \/ exists x, snd r = CErr x).
Proof.
  intros S I M e me dev ip port id s xs f Hl Hm HM HI HX Hmx Hsz (Hid & Hb & HA). cbv zeta in *.
  set (g := mkDgram ip port (local_frame (spec_writemulti_request id xs))) in *.
  assert (HR : reached dev ip port [1; 4]) by (left; split; [reflexivity|exact Hl]).
  assert (ES : addr_SetLength (dv_addr dev) = dv_addr dev) by (unfold addr_SetLength; destruct Hl as (_ & -> & _); reflexivity).
  pose proof (zlen_nonneg (spec_writemulti_request id xs)) as Hnn. destruct (reached_facts _ _ _ _ HR) as (HU & Hfu & _). pose proof (via_header _ _ _ _ me HR Hm) as HV. rewrite ES in *.
  assert (ENC : enc_WriteMultiProperty id (mkMPD (map write_object xs)) (mkEnc [1; 4] None) = ROk (mkEnc ([1; 4] ++ spec_writemulti_request id xs) None, None)).
  { pose proof (writemulti_plain id xs Hb HX) as P. assert (HX' : Forall (fun x => valid_oid (fst x) /\ Forall writing_ok (snd x)) xs) by (eapply Forall_impl; [|exact HX]; cbv beta; tauto).
    unfold newEncoder in P. rewrite enc_writemulti in P |- * by assumption. cbn [app] in P. injection P as P. rewrite P. reflexivity. }
  assert (EX : forall k, exchange e k (dv_addr dev) ([1; 4] ++ spec_writemulti_request id xs)
     = ([g], if at_sent (ev_att e k g) then match at_reply (ev_att e k g) with Some p => inr p | None => inl CTimeout end else inl CSend)).
  { intro k. unfold exchange, send_dgram. rewrite HU, frame_small, Hfu by (rewrite zlen_app; change (zlen [1; 4]) with 2; lia). fold (local_frame (spec_writemulti_request id xs)). fold g. cbv zeta.
    destruct (at_sent _); [destruct (at_reply _)|]; reflexivity. }
  assert (E0 : WriteMultiProperty e me dev (mkMPD (map write_object xs)) = wpm_loop 2 0 e (dv_addr dev) ([1; 4] ++ spec_writemulti_request id xs) CNoData).
  { unfold WriteMultiProperty. rewrite Hid, HV. replace (u8 id) with id by (unfold u8; unfold is_byte in Hb; lia). rewrite ENC. cbn [ebuf eerr].
    replace (dv_maxapdu dev <? _) with false; [reflexivity|]. rewrite zlen_app. change (zlen [1; 4]) with 2. unfold u32. rewrite Z.mod_small by lia. lia. }
  assert (IT : forall k, I (told_after M id xs f k s)).
  { induction k as [|k IH]; [exact HI|]. cbn [told_after]. rewrite told_moved. destruct (f k); try exact IH; apply (carry_range S I M); try assumption; apply writes_flat; exact HX. }
  assert (STEP : forall k n last, if complete M (told_after M id xs f k s) xs (f k)
    then wpm_loop (Datatypes.S n) k e (dv_addr dev) ([1; 4] ++ spec_writemulti_request id xs) last = ([g], COk tt)
    else exists last', wpm_loop (Datatypes.S n) k e (dv_addr dev) ([1; 4] ++ spec_writemulti_request id xs) last
               = (let '(tr', r') := wpm_loop n (Datatypes.S k) e (dv_addr dev) ([1; 4] ++ spec_writemulti_request id xs) last' in ([g] ++ tr', r'))).
  { intros k n last. specialize (HA k). unfold complete. cbn [wpm_loop]. rewrite EX. destruct (f k).
    - rewrite HA. eexists. reflexivity.
    - destruct HA as (-> & ->). eexists. reflexivity.
    - destruct HA as (-> & ->). eexists. reflexivity.
    - destruct HA as (-> & known & src & fn & np & reply & Hf & Hn & Hnm & -> & Hd). unfold react_writes in Hd.
      pose proof (proj2 (carry_range S I M (flat_writes xs) (told_after M id xs f k s) HM (IT k) (writes_flat xs HX))) as ER.
      destruct (carry_out M (told_after M id xs f k s) (flat_writes xs)) as [s' [[[o w] [c y]]|]]; cbn [fst snd] in *.
      + assert (EQ : spec_multi_error id o w c y = spec_error_bracketed 0 id 16 c y ++ (spec_open 1 ++ spec_ctx_oid 0 o ++ spec_ctx_unsigned 1 (wt_prop w) ++ spec_index 2 (wt_index w) ++ spec_close 1))
          by (unfold spec_multi_error, spec_error_bracketed; rewrite <- !app_assoc; reflexivity).
        rewrite EQ in Hd. destruct ER as (ER1 & ER2). cbn [fst snd] in ER1, ER2. rewrite recv_error_bracketed in Hd by (try assumption; lia).
        cbn [fst In] in Hd. destruct Hd as [Hd|[]]. inversion Hd. eexists. reflexivity.
      + unfold spec_simple_ack in Hd. rewrite recv_ack in Hd; try assumption; [|unfold is_byte; lia|left; reflexivity]. cbn [fst In] in Hd. destruct Hd as [Hd|[]]. inversion Hd. reflexivity. }
  assert (TM : forall k, told_after M id xs f (Datatypes.S k) s = moved M (told_after M id xs f k s) xs (f k)).
  { intro k. cbn [told_after]. unfold moved. rewrite told_moved. reflexivity. }
  rewrite E0. pose proof (STEP 0%nat 1%nat CNoData) as S0. unfold settles_writes. cbn [told_after] in S0.
  destruct (complete M s xs (f 0%nat)).
  - rewrite S0. cbn [fst snd length]. rewrite TM. split; [reflexivity|left; reflexivity].
  - destruct S0 as (last & ->). pose proof (STEP 1%nat 0%nat last) as S1. rewrite TM in S1. cbn [told_after] in S1. cbv zeta.
    destruct (complete M (moved M s xs (f 0%nat)) xs (f 1%nat)).
    + rewrite S1. cbn [fst snd length app]. rewrite !TM. cbn [told_after]. split; [reflexivity|left; reflexivity].
    + destruct S1 as (last' & ->). cbn [wpm_loop fst snd length app]. rewrite !TM. cbn [told_after]. split; [reflexivity|right; eexists; reflexivity].
Qed.

(** ** Devices that keep what is written *)
Lemma carry_memory : forall (S : Type) (M : machine S), memory M -> forall l s,
  (forall o p idx, ~ In (o, p, idx) (map place l) -> m_read M (fst (carry_out M s l)) o p idx = m_read M s o p idx)
  /\ (forall o p idx, m_read M (fst (carry_out M s l)) o p idx = m_read M s o p idx
       \/ exists w, In (o, w) l /\ place (o, w) = (o, p, idx) /\ m_read M (fst (carry_out M s l)) o p idx = inl [SVal (wt_value w)])
  /\ (snd (carry_out M s l) = None -> forall l1 o w l2, l = l1 ++ (o, w) :: l2 -> ~ In (place (o, w)) (map place l2) ->
       m_read M (fst (carry_out M s l)) o (wt_prop w) (wt_index w) = inl [SVal (wt_value w)]).
Proof.
  intros S M (HW & HO). induction l as [|[o w] l IH]; intro s; cbn [carry_out].
  - split; [reflexivity|]. split; [left; reflexivity|]. intros _ l1 o w l2 H. destruct l1; discriminate.
  - destruct (m_write M s o (wt_prop w) (wt_index w) (wt_value w) (wt_prio w)) as [s'|x] eqn:E; cbn [fst snd].
    + destruct (IH s') as (A & B & C). assert (D : forall o' p' idx', (o', p', idx') = (o, wt_prop w, wt_index w) \/ (o', p', idx') <> (o, wt_prop w, wt_index w)).
      { intros o' p' idx'. destruct o as [t i], o' as [t' i']. destruct (Z.eq_dec t t'), (Z.eq_dec i i'), (Z.eq_dec p' (wt_prop w)), (Z.eq_dec idx' (wt_index w)); try (right; congruence). left. congruence. }
      split; [|split].
      * intros o' p' idx' N. cbn [map In] in N. rewrite A by tauto. apply (HO s o (wt_prop w) (wt_index w) (wt_value w) (wt_prio w)); [exact E|]. intro Q. apply N. left. symmetry. exact Q.
      * intros o' p' idx'. destruct (B o' p' idx') as [H|(w' & H1 & H2 & H3)].
        -- destruct (D o' p' idx') as [Q|Q].
           ++ right. exists w. injection Q as -> -> ->. split; [left; reflexivity|]. split; [reflexivity|]. rewrite H. exact (HW _ _ _ _ _ _ _ E).
           ++ left. rewrite H. exact (HO _ _ _ _ _ _ _ _ _ _ E Q).
        -- right. exists w'. split; [right; exact H1|]. split; assumption.
      * intros F l1 o' w' l2 H N. destruct l1 as [|z l1]; cbn [app] in H.
        -- injection H as <- <- <-. rewrite A by exact N. exact (HW _ _ _ _ _ _ _ E).
        -- injection H as _ H2. eapply C; eassumption.
    + split; [reflexivity|]. split; [left; reflexivity|]. discriminate.
Qed.
Lemma writes_stored : forall (S : Type) (I : S -> Prop) (M : machine S) e me dev ip port id s xs f, local dev ip port -> present me = false ->
  machine_ok I M -> memory M -> I s -> writes_ok xs ->
  dv_maxapdu dev <= 65531 -> 2 + zlen (spec_writemulti_request id xs) <= dv_maxapdu dev ->
  hosts_writes M ip port s xs f e id ->
  let r := WriteMultiProperty e me dev (mkMPD (map write_object xs)) in
  let after := told_after M id xs f (length (fst r)) s in
  (forall o p idx, ~ In (o, p, idx) (map place (flat_writes xs)) -> m_read M after o p idx = m_read M s o p idx)
  /\ (forall o p idx, m_read M after o p idx = m_read M s o p idx
       \/ exists w, In (o, w) (flat_writes xs) /\ place (o, w) = (o, p, idx) /\ m_read M after o p idx = inl [SVal (wt_value w)])
  /\ (snd r = COk tt -> forall l1 o w l2, flat_writes xs = l1 ++ (o, w) :: l2 -> ~ In (place (o, w)) (map place l2) ->
       m_read M after o (wt_prop w) (wt_index w) = inl [SVal (wt_value w)]).
Proof.
  intros S I M e me dev ip port id s xs f Hl Hm HM HME HI HX Hmx Hsz HH. cbv zeta.
  destruct (multi_write S I M e me dev ip port id s xs f Hl Hm HM HI HX Hmx Hsz HH) as (E & _). cbv zeta in E.
  set (after := told_after M id xs f (length (fst (WriteMultiProperty e me dev (mkMPD (map write_object xs))))) s) in *.
  assert (ST : forall s x, (forall o p idx, ~ In (o, p, idx) (map place (flat_writes xs)) -> m_read M (moved M s xs x) o p idx = m_read M s o p idx)
    /\ (forall o p idx, m_read M (moved M s xs x) o p idx = m_read M s o p idx
       \/ exists w, In (o, w) (flat_writes xs) /\ place (o, w) = (o, p, idx) /\ m_read M (moved M s xs x) o p idx = inl [SVal (wt_value w)])
    /\ (complete M s xs x = true -> forall l1 o w l2, flat_writes xs = l1 ++ (o, w) :: l2 -> ~ In (place (o, w)) (map place l2) ->
         m_read M (moved M s xs x) o (wt_prop w) (wt_index w) = inl [SVal (wt_value w)])).
  { intros s0 x. destruct (carry_memory S M HME (flat_writes xs) s0) as (A & B & C). unfold moved, complete.
    destruct x; (split; [try reflexivity; exact A|]); (split; [try (left; reflexivity); exact B|]); try discriminate.
    destruct (snd (carry_out M s0 (flat_writes xs))); [discriminate|]. intros _. exact (C eq_refl). }
  unfold settles_writes in E. destruct (complete M s xs (f 0%nat)) eqn:EC.
  - injection E as E1 E2. rewrite E2. destruct (ST s (f 0%nat)) as (A & B & C). split; [exact A|]. split; [exact B|]. intros _. exact (C EC).
  - injection E as E1 E2. rewrite E2. destruct (ST s (f 0%nat)) as (A & B & _). destruct (ST (moved M s xs (f 0%nat)) (f 1%nat)) as (A2 & B2 & C2).
    split; [intros; rewrite A2, A by assumption; reflexivity|]. split.
    + intros o p idx. destruct (B2 o p idx) as [->|H]; [apply B|right; exact H].
    + intro Q. rewrite Q in E1. apply C2. symmetry. exact E1.
Qed.

(** ** Every fate occurs *)
Definition plain_header : npdu := mkNpdu 1 None None 0 false 0 false 0 0.
Lemma plain_header_ok : npdu_ok plain_header.
Proof. unfold npdu_ok, is_byte; cbn; repeat split; try discriminate; auto. Qed.
Lemma reads_possible : forall (S : Type) (M : machine S) ip port hdr fuel st xs f id, is_byte id ->
  (forall k, f k = Arrived -> (length (spec_multi_answer M (st k) id xs) <= fuel)%nat) -> exists e, hosts_reads M ip port hdr fuel st xs f e id.
Proof.
  intros S M ip port hdr fuel st xs f id Hb Hfl.
  exists (mkEnv (Some id) (fun k _ => match f k with NotSent => mkAtt false None | RequestLost | AnswerLost => mkAtt true None
            | Arrived => mkAtt true (Some (PBytes (spec_multi_answer M (st k) id xs))) end)).
  split; [reflexivity|]. split; [exact Hb|]. cbv zeta. intro k. cbn [ev_att]. specialize (Hfl k). destruct (f k); cbn [at_sent at_reply]; auto.
  split; [reflexivity|]. split; [auto|]. exists (fun _ => true), (mkAddr 0 0 0 [] []), 10, plain_header, (PBytes (spec_multi_answer M (st k) id xs)).
  split; [left; reflexivity|]. split; [exact plain_header_ok|]. split; [reflexivity|]. split; [reflexivity|].
  unfold spec_multi_answer, spec_complex_ack. cbn [app]. rewrite recv_ack; [left; reflexivity|left; reflexivity|exact plain_header_ok|reflexivity|unfold is_byte; lia|right; reflexivity].
Qed.
Lemma writes_possible : forall (S : Type) (I : S -> Prop) (M : machine S) ip port s xs f id, machine_ok I M -> I s -> writes_ok xs -> is_byte id ->
  exists e, hosts_writes M ip port s xs f e id.
Proof.
  intros S I M ip port s xs f id HM HI HX Hb.
  set (rep := fun s => match carry_out M s (flat_writes xs) with (_, None) => PBytes (spec_simple_ack id 16) | (_, Some (_, _, (c, y))) => PErr c y end).
  exists (mkEnv (Some id) (fun k _ => match f k with NotSent => mkAtt false None | RequestLost | AnswerLost => mkAtt true None
            | Arrived => mkAtt true (Some (rep (told_after M id xs f k s))) end)).
  split; [reflexivity|]. split; [exact Hb|]. cbv zeta. intro k. cbn [ev_att].
  assert (IT : I (told_after M id xs f k s)).
  { induction k as [|k IH]; [exact HI|]. cbn [told_after]. rewrite told_moved. destruct (f k); try exact IH; apply (carry_range S I M); try assumption; apply writes_flat; exact HX. }
  destruct (f k); cbn [at_sent at_reply]; auto. split; [reflexivity|].
  exists (fun _ => true), (mkAddr 0 0 0 [] []), 10, plain_header, (rep (told_after M id xs f k s)).
  split; [left; reflexivity|]. split; [exact plain_header_ok|]. split; [reflexivity|]. split; [reflexivity|].
  pose proof (proj2 (carry_range S I M (flat_writes xs) (told_after M id xs f k s) HM IT (writes_flat xs HX))) as ER. unfold rep, react_writes.
  destruct (carry_out M (told_after M id xs f k s) (flat_writes xs)) as [s' [[[o w] [c y]]|]]; cbn [fst snd] in *.
  - assert (EQ : spec_multi_error id o w c y = spec_error_bracketed 0 id 16 c y ++ (spec_open 1 ++ spec_ctx_oid 0 o ++ spec_ctx_unsigned 1 (wt_prop w) ++ spec_index 2 (wt_index w) ++ spec_close 1))
      by (unfold spec_multi_error, spec_error_bracketed; rewrite <- !app_assoc; reflexivity).
    rewrite EQ. destruct ER as (ER1 & ER2). cbn [fst snd] in ER1, ER2.
    rewrite recv_error_bracketed; [left; reflexivity|left; reflexivity|exact plain_header_ok|reflexivity|lia|lia|lia].
  - unfold spec_simple_ack. rewrite recv_ack; [left; reflexivity|left; reflexivity|exact plain_header_ok|reflexivity|unfold is_byte; lia|left; reflexivity].
Qed.
Lemma one_moment : forall (S : Type) (I : S -> Prop) (M : machine S) fuel e me dev ip port hdr id st xs f objs, reached dev ip port hdr -> present me = false ->
  machine_ok I M -> (forall k, I (st k)) -> reads_ok xs ->
  dv_maxapdu dev <= 65531 -> zlen hdr + zlen (spec_readmulti_request id xs) <= dv_maxapdu dev ->
  hosts_reads M ip port hdr fuel st xs f e id ->
  snd (ReadMultiProperty fuel e me dev (mkMPD (map read_object xs))) = COk objs ->
  exists k, (k < 2)%nat /\ f k = Arrived /\ snapshot M (st k) xs = Some objs.
Proof.
  intros S I M fuel e me dev ip port hdr id st xs f objs H1 H2 H3 H4 H5 H6 H7 H8 H.
  pose proof (multi_read S I M fuel e me dev ip port hdr id st xs f H1 H2 H3 H4 H5 H6 H7 H8) as K. cbv zeta in K.
  assert (B : forall k, brings M st xs f k = Some objs -> f k = Arrived /\ snapshot M (st k) xs = Some objs).
  { intros k Q. unfold brings in Q. destruct (f k); try discriminate. auto. }
  destruct (brings M st xs f 0) as [x|] eqn:E0.
  - rewrite K in H. cbn [snd] in H. injection H as ->. exists O. split; [lia|apply B; exact E0].
  - destruct (brings M st xs f 1) as [x|] eqn:E1.
    + rewrite K in H. cbn [snd] in H. injection H as ->. exists 1%nat. split; [lia|apply B; exact E1].
    + destruct K as (x & K). rewrite K in H. discriminate.
Qed.
