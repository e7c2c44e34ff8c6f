(** Sessions with a device. *)
From Coq Require Import Lia ZifyBool ZifyNat.
From Verif Require Import ModelNet SpecWire SpecCodec SpecLayers SpecServices SpecObs SpecClient SpecNet SpecDevice
  ProofsWire ProofsTag ProofsApp ProofsBits ProofsTrunc ProofsCodec ProofsLayers ProofsLayerProps ProofsServices ProofsMulti ProofsTerm ProofsServiceProps
  ProofsRecv ProofsCall ProofsTypes ProofsNet.
Ltac Zify.zify_post_hook ::= Z.div_mod_to_equations.

Lemma value_len : forall bin v, writable v -> (forall l, v = VString l -> zlen l <= 60000) -> zlen (lib_value bin v) <= 65000.
Proof.
  intros bin v H L. destruct v; try contradiction; cbn [lib_value app_written spec_app].
  1: pose proof (tag_len 0 0 ltac:(lia)); lia.
  1: pose proof (tag_len 1 (if b then 1 else 0) ltac:(lia)); lia.
  all: cbn [writable] in H.
  - assert (zlen (spec_unsigned n) <= 4) by (unfold spec_unsigned; rewrite zlen_octets; pose proof (usize_le4 n H); lia).
    destruct bin; cbn [spec_app]; rewrite zlen_app; [pose proof (tag_len 9 (usize n) ltac:(lia))|pose proof (tag_len 2 (usize n) ltac:(lia))]; lia.
  - rewrite zlen_app. pose proof (tag_len 3 (usize (u32 n)) ltac:(lia)). assert (in_u32 (u32 n)) by (unfold in_u32, u32; lia).
    assert (zlen (spec_unsigned (u32 n)) <= 4) by (unfold spec_unsigned; rewrite zlen_octets; pose proof (usize_le4 _ H1); lia). lia.
  - rewrite zlen_app, zlen_octets. pose proof (tag_len 4 4 ltac:(lia)). lia.
  - rewrite zlen_app, zlen_octets. pose proof (tag_len 5 4 ltac:(lia)). lia.
  - rewrite zlen_app, zlen_cons. pose proof (tag_len 7 (zlen l + 1) ltac:(lia)). specialize (L l eq_refl). lia.
  - assert (zlen (spec_unsigned n) <= 4) by (unfold spec_unsigned; rewrite zlen_octets; pose proof (usize_le4 n H); lia).
    rewrite zlen_app. pose proof (tag_len 9 (usize n) ltac:(lia)). lia.
  - rewrite zlen_app. unfold spec_oid. rewrite zlen_octets. pose proof (tag_len 12 4 ltac:(lia)). lia.
Qed.
Lemma write_via : forall e me dev ip port net mac o p idx v prio id, dv_addr dev = point_addr ip port net mac ->
  is_ip ip -> is_port port -> 0 <= net < 65536 -> is_byte mac -> present me = false ->
  op_ok (OWrite o p idx v prio) -> ev_id e = Some id -> is_byte id ->
  let g := mkDgram ip port (point_frame net mac (spec_write_request id o p idx v prio)) in
  (forall k b, heard (ev_att e k g) = Some (PBytes b) -> fst (check_apdu (newDecoder b)) = None) ->
  WriteProperty e me dev (write_of o p idx v prio) = write_outcome g (ev_att e 0 g) (ev_att e 1 g).
Proof.
  intros e me dev ip port net mac o p idx v prio id Ed Hi Hp Hn Hm Hme (Ho & Hpr & Hx & Hb & Hv & Hst & Hbin & Hl) Hid Hb' g HC. assert (Hp' : in_u32 p) by (red in Hpr; red; lia).
  assert (EQ : lib_write id o p idx v prio = spec_write_request id o p idx v prio).
  { unfold lib_write, spec_write_request. rewrite (proj2 (lib_value_standard o p v Hv Hbin) Hst). reflexivity. }
  destruct (point_header ip port net mac me Hn Hm Hme) as (hdr & EH & HL & HF).
  assert (E : WriteProperty e me dev (write_of o p idx v prio) = wp_loop 2 0 e (addr_SetLength (point_addr ip port net mac)) (hdr ++ lib_write id o p idx v prio) CNoData).
  { unfold WriteProperty. rewrite Hid, Ed, EH. replace (u8 id) with id by (unfold u8; unfold is_byte in Hb'; lia). rewrite enc_write by assumption. reflexivity. }
  assert (HS : zlen (hdr ++ lib_write id o p idx v prio) <= 65531).
  { rewrite zlen_app. pose proof (write_len id o p idx v prio Hp' Hx Hb (value_len _ v Hv Hl)). lia. }
  assert (X := fun k => point_frame_of ip port net mac hdr (lib_write id o p idx v prio) k e Hi Hp HS HF). cbv zeta in X. rewrite EQ in X. fold g in X.
  rewrite E, EQ. cbn [wp_loop]. rewrite !X. unfold write_outcome, heard, unheard in *. pose proof (HC 0%nat) as C0. pose proof (HC 1%nat) as C1. clear HC.
  destruct (at_sent (ev_att e 0 g)); [destruct (at_reply (ev_att e 0 g)) as [[b|c x]|]; [rewrite (C0 b eq_refl); reflexivity|reflexivity|]|];
    (destruct (at_sent (ev_att e 1 g)); [destruct (at_reply (ev_att e 1 g)) as [[b|c x]|]; [rewrite (C1 b eq_refl); reflexivity|reflexivity|reflexivity]|reflexivity]).
Qed.

Lemma arrived_simple : forall known src fn n id reply, frame_func fn -> npdu_ok n -> n_netmsg n = false ->
  In (EDeliver id reply) (fst (handleMsg known src (spec_bvlc fn (spec_npdu n ++ spec_simple_ack id 15)))) -> reply = PBytes (spec_simple_ack id 15).
Proof.
  intros known src fn n id reply Hf Hn Hm H. unfold spec_simple_ack in *. rewrite recv_ack in H; try assumption; [|unfold is_byte; lia|left; reflexivity].
  cbn [fst In] in H. destruct H as [H|[]]. congruence.
Qed.
Lemma arrived_read : forall known src fn n id o p idx vs reply, frame_func fn -> npdu_ok n -> n_netmsg n = false ->
  In (EDeliver id reply) (fst (handleMsg known src (spec_bvlc fn (spec_npdu n ++ spec_read_ack id o p idx vs)))) -> reply = PBytes (spec_read_ack id o p idx vs).
Proof.
  intros known src fn n id o p idx vs reply Hf Hn Hm H. unfold spec_read_ack, spec_complex_ack in *. cbn [app] in *.
  rewrite recv_ack in H; try assumption; [|unfold is_byte; lia|right; reflexivity].
  cbn [fst In] in H. destruct H as [H|[]]. congruence.
Qed.
Lemma arrived_error : forall known src fn n id svc c k reply, frame_func fn -> npdu_ok n -> n_netmsg n = false -> error_range (c, k) ->
  In (EDeliver id reply) (fst (handleMsg known src (spec_bvlc fn (spec_npdu n ++ spec_error id svc c k)))) -> exists x, reply = PErr c x.
Proof.
  intros known src fn n id svc c k reply Hf Hn Hm (Hc & Hk) H. rewrite recv_error in H by assumption.
  cbn [fst In] in H. destruct H as [H|[]]. inversion H. eexists. reflexivity.
Qed.

Lemma meant_writable : forall o p v, writable v -> writable (meant o p v).
Proof. intros o p v H. destruct v; try exact H. cbn [meant]. destruct (binary_pv o p); exact H. Qed.
Lemma meant_standard : forall o p v, written_standard v -> written_standard (meant o p v).
Proof. intros o p v H. destruct v; try exact H. cbn [meant]. destruct (binary_pv o p); exact H. Qed.
Lemma accept_stays : forall (S : Type) (I : S -> Prop) (M : machine S) o p idx v prio s, machine_ok I M -> I s -> writable v -> written_standard v -> I (accept M o p idx v prio s).
Proof.
  intros S I M o p idx v prio s (_ & MW) HI Hv Hs. unfold accept. specialize (MW s o p idx (meant o p v) prio HI (meant_writable o p v Hv) (meant_standard o p v Hs)).
  destruct (m_write _ _ _ _ _ _ _); assumption.
Qed.
Lemma react_stays : forall (S : Type) (I : S -> Prop) (M : machine S) id x f, machine_ok I M -> op_ok x -> forall k s, I s -> I (device_after M id x f k s).
Proof.
  intros S I M id x f HM Hx. induction k as [|k IH]; intros s HI; [exact HI|]. cbn [device_after]. specialize (IH s HI).
  assert (J : I (fst (react M id x (device_after M id x f k s)))).
  { destruct x as [o p idx|o p idx v prio]; [exact IH|]. pose proof (accept_stays S I M o p idx v prio _ HM IH ltac:(apply Hx) ltac:(apply Hx)) as A. unfold accept in A. cbn [react].
    destruct (m_write _ _ _ _ _ _ _) as [?|[? ?]]; exact A. }
  destruct (f k); assumption.
Qed.
Lemma settles_stays : forall (S : Type) (I : S -> Prop) (M : machine S) s x f, machine_ok I M -> I s -> op_ok x -> I (snd (settles M s x f)).
Proof.
  intros S I M s x f HM HI Hx. destruct x as [o p idx|o p idx v prio]; [exact HI|]. cbn [settles].
  pose proof (fun t HT => accept_stays S I M o p idx v prio t HM HT ltac:(apply Hx) ltac:(apply Hx)) as A.
  destruct (f 0%nat), (f 1%nat); cbn [snd]; auto.
Qed.
(** one call *)
Lemma call_settles : forall (S : Type) (I : S -> Prop) (M : machine S) me dev ip port net mac s x f e id, dv_addr dev = point_addr ip port net mac ->
  is_ip ip -> is_port port -> 0 <= net < 65536 -> is_byte mac -> present me = false -> machine_ok I M -> I s -> op_ok x ->
  hosts M ip port net mac s x f e id ->
  (snd (perform me dev e x), device_after M id x f (length (fst (perform me dev e x))) s) = settles M s x f
  /\ I (snd (settles M s x f)).
Proof.
  intros S I M me dev ip port net mac s x f e id Ed Hi Hp Hn Hm Hme HM HI Hx (Hid & Hb & H).
  split; [|exact (settles_stays S I M s x f HM HI Hx)]. pose proof (react_stays S I M id x f HM Hx) as RS. destruct HM as (MR & MW). destruct x as [o p idx|o p idx v prio].
  - destruct Hx as (Ho & Hpr & Hix). cbn [perform fst snd settles request_of] in *.
    destruct (read_at e me dev ip port net mac o p idx Ed Hi Hp Hn Hm Hme Ho Hpr Hix) as [_ R].
    destruct (R id Hid Hb) as (R0 & R1 & R2 & R3 & R4). rewrite R0. cbn [length device_after react fst].
    specialize (H 0%nat). cbn [device_after react snd] in H. specialize (MR s o p idx HI).
    destruct (f 0%nat).
    + rewrite R1 by exact H. reflexivity.
    + rewrite R2 by apply H. reflexivity.
    + rewrite R2 by apply H. reflexivity.
    + destruct H as (Hs & known & src & fn & n & reply & Hf & Hnp & Hnm & Hr & Hd).
      destruct (m_read M s o p idx) as [vs|[c k]].
      * rewrite (R4 Hs vs MR); [reflexivity|]. rewrite Hr. f_equal. exact (arrived_read _ _ _ _ _ _ _ _ _ _ Hf Hnp Hnm Hd).
      * destruct (arrived_error _ _ _ _ _ _ _ _ _ Hf Hnp Hnm MR Hd) as (y & ->). rewrite (R3 Hs c y Hr). reflexivity.
  - cbn [perform fst snd settles request_of] in *. set (g := mkDgram ip port (point_frame net mac (spec_write_request id o p idx v prio))) in *.
    assert (HK : forall k, match f k with
       | NotSent => heard (ev_att e k g) = None
       | RequestLost | AnswerLost => heard (ev_att e k g) = None
       | Arrived => match m_write M (device_after M id (OWrite o p idx v prio) f k s) o p idx (meant o p v) prio with
                    | inl _ => heard (ev_att e k g) = Some (PBytes (spec_simple_ack id 15))
                    | inr _ => exists c y, heard (ev_att e k g) = Some (PErr c y)
                    end
       end).
    { intro k. specialize (H k). unfold heard. destruct (f k).
      - rewrite H. reflexivity.
      - destruct H as (-> & H). exact H.
      - destruct H as (-> & H). exact H.
      - destruct H as (-> & known & src & fn & n & reply & Hf & Hnp & Hnm & Hr & Hd). cbn [react snd] in Hd.
        specialize (MW (device_after M id (OWrite o p idx v prio) f k s) o p idx (meant o p v) prio (RS k s HI) (meant_writable o p v ltac:(apply Hx)) (meant_standard o p v ltac:(apply Hx))).
        destruct (m_write M (device_after M id (OWrite o p idx v prio) f k s) o p idx (meant o p v) prio) as [s'|[c y]].
        + rewrite Hr. f_equal. exact (arrived_simple _ _ _ _ _ _ Hf Hnp Hnm Hd).
        + destruct (arrived_error _ _ _ _ _ _ _ _ _ Hf Hnp Hnm MW Hd) as (y' & ->). exists c, y'. exact Hr. }
    assert (HC : forall k b, heard (ev_att e k g) = Some (PBytes b) -> fst (check_apdu (newDecoder b)) = None).
    { intros k b E. specialize (HK k). destruct (f k); try congruence. destruct (m_write _ _ _ _ _ _ _).
      - rewrite HK in E. injection E as <-. reflexivity.
      - destruct HK as (c & y & HK). congruence. }
    rewrite (write_via e me dev ip port net mac o p idx v prio id Ed Hi Hp Hn Hm Hme Hx Hid Hb HC). fold g.
    pose proof (HK 0%nat) as K0. pose proof (HK 1%nat) as K1. clear HK HC H. cbn [device_after react] in K0, K1.
    unfold write_outcome, accepts, accept.
    destruct (f 0%nat) eqn:F0.
    1,2,3: rewrite K0.
    4: destruct (m_write M s o p idx (meant o p v) prio) as [s'|[c y]] eqn:W;
       [rewrite K0|destruct K0 as (c' & y' & ->)]; cbn [fst snd length device_after react]; rewrite F0, W; reflexivity.
    all: destruct (f 1%nat) eqn:F1; try rewrite K1; cbn [fst snd length device_after react]; rewrite ?F0, ?F1; try reflexivity.
    all: destruct (m_write M s o p idx (meant o p v) prio) as [s'|[c y]] eqn:W; cbn [fst snd] in *.
    all: try (rewrite K1; cbn [fst snd length device_after react]; rewrite ?F0, ?F1, ?W; reflexivity).
    all: try (destruct K1 as (c' & y' & ->); cbn [fst snd length device_after react]; rewrite ?F0, ?F1, ?W; cbn [fst snd]; rewrite ?W; reflexivity).
    all: try (destruct (m_write M s' o p idx (meant o p v) prio) as [s''|[c2 y2]] eqn:W2).
    all: try (rewrite K1; cbn [fst snd length device_after react]; rewrite ?F0, ?F1, ?W; cbn [fst snd]; rewrite ?W2; reflexivity).
    all: try (destruct K1 as (c' & y' & ->); cbn [fst snd length device_after react]; rewrite ?F0, ?F1, ?W; cbn [fst snd]; rewrite ?W2; reflexivity).
    all: cbn [fst snd length device_after react]; rewrite ?F0, ?F1, ?W; cbn [fst snd]; rewrite ?W; try reflexivity.
    all: try (rewrite W2; reflexivity).
    rewrite W in K1. destruct K1 as (c' & y' & ->). cbn [fst snd length device_after react]. rewrite F0, F1. cbn [react]. rewrite W. cbn [fst]. rewrite W. reflexivity.
Qed.

Lemma session_settles : forall (S : Type) (I : S -> Prop) (M : machine S) me dev ip port net mac, dv_addr dev = point_addr ip port net mac ->
  is_ip ip -> is_port port -> 0 <= net < 65536 -> is_byte mac -> present me = false -> machine_ok I M ->
  forall l s, I s -> Forall (stays I) l -> session M ip port net mac me dev s l -> (what_is_seen me dev l, final_state M me dev s l) = ought M s l.
Proof.
  intros S I M me dev ip port net mac Ed Hi Hp Hn Hm Hme HM. induction l as [|[x f e id|h] l IH]; intros s HI HS H; cbn [session what_is_seen final_state ought] in *.
  - reflexivity.
  - destruct H as (Hx & Hh & H). destruct (call_settles S I M me dev ip port net mac s x f e id Ed Hi Hp Hn Hm Hme HM HI Hx Hh) as (E & HI').
    inversion HS. subst. assert (HI2 : I (device_after M id x f (length (fst (perform me dev e x))) s)) by (rewrite <- E in HI'; exact HI').
    specialize (IH _ HI2 H3 H). cbv zeta. rewrite <- E. cbn [fst snd]. rewrite <- IH. reflexivity.
  - inversion HS. subst. apply IH; auto.
Qed.

(** the same, split at a point of the session *)
Lemma session_app : forall (S : Type) (M : machine S) ip port net mac me dev l1 l2 s,
  session M ip port net mac me dev s (l1 ++ l2) <-> session M ip port net mac me dev s l1 /\ session M ip port net mac me dev (final_state M me dev s l1) l2.
Proof.
  intros S M ip port net mac me dev. induction l1 as [|[x f e id|h] l1 IH]; intros l2 s; cbn [app session final_state].
  - tauto.
  - rewrite IH. tauto.
  - apply IH.
Qed.
Lemma final_app : forall (S : Type) (M : machine S) me dev l1 l2 s, final_state M me dev s (l1 ++ l2) = final_state M me dev (final_state M me dev s l1) l2.
Proof. intros S M me dev. induction l1 as [|[x f e id|h] l1 IH]; intros l2 s; cbn [app final_state]; auto. Qed.
Lemma final_stays : forall (S : Type) (I : S -> Prop) (M : machine S) me dev ip port net mac, machine_ok I M ->
  forall l s, I s -> Forall (stays I) l -> session M ip port net mac me dev s l -> I (final_state M me dev s l).
Proof.
  intros S I M me dev ip port net mac HM. induction l as [|[x f e id|h] l IH]; intros s HI HS H; cbn [session final_state] in *; [exact HI| |].
  - inversion HS. subst. destruct H as (Hx & _ & H). apply IH; [|assumption|assumption]. apply react_stays; assumption.
  - inversion HS. subst. apply IH; auto.
Qed.

Lemma classic_oid : forall a b : object_id * Z * Z, a = b \/ a <> b.
Proof. intros a b. destruct (ltac:(repeat decide equality) : {a = b} + {a <> b}); auto. Qed.

(** * Memories *)
Lemma memory_kept : forall (S : Type) (M : machine S) o p idx v prio s o' p' idx', memory M -> (o', p', idx') <> (o, p, idx) ->
  m_read M (accept M o p idx v prio s) o' p' idx' = m_read M s o' p' idx'.
Proof.
  intros S M o p idx v prio s o' p' idx' (_ & H) N. unfold accept. destruct (m_write M s o p idx (meant o p v) prio) eqn:W; [|reflexivity]. exact (H _ _ _ _ _ _ _ _ _ _ W N).
Qed.
Lemma memory_new : forall (S : Type) (M : machine S) o p idx v prio s, memory M ->
  m_read M (accept M o p idx v prio s) o p idx = m_read M s o p idx \/ m_read M (accept M o p idx v prio s) o p idx = inl [SVal (meant o p v)].
Proof.
  intros S M o p idx v prio s (H & _). unfold accept. destruct (m_write M s o p idx (meant o p v) prio) eqn:W; [right|left; reflexivity]. exact (H _ _ _ _ _ _ _ W).
Qed.
Lemma memory_done : forall (S : Type) (M : machine S) o p idx v prio s, memory M -> accepts M o p idx v prio s = Done ->
  m_read M (accept M o p idx v prio s) o p idx = inl [SVal (meant o p v)].
Proof.
  intros S M o p idx v prio s (H & _) D. unfold accept, accepts in *. destruct (m_write M s o p idx (meant o p v) prio) eqn:W; [|discriminate]. exact (H _ _ _ _ _ _ _ W).
Qed.
Lemma settled_write : forall (S : Type) (M : machine S) s o p idx v prio f, memory M ->
  let r := settles M s (OWrite o p idx v prio) f in
  (forall o' p' idx', (o', p', idx') <> (o, p, idx) -> m_read M (snd r) o' p' idx' = m_read M s o' p' idx')
  /\ (fst r = Done -> m_read M (snd r) o p idx = inl [SVal (meant o p v)])
  /\ (m_read M (snd r) o p idx = m_read M s o p idx \/ m_read M (snd r) o p idx = inl [SVal (meant o p v)]).
Proof.
  intros S M s o p idx v prio f HM r. subst r. cbn [settles].
  set (A := accept M o p idx v prio).
  assert (K : forall t o' p' idx', (o', p', idx') <> (o, p, idx) -> m_read M (A t) o' p' idx' = m_read M t o' p' idx') by (intros; apply memory_kept; assumption).
  assert (N : forall t, m_read M (A t) o p idx = m_read M t o p idx \/ m_read M (A t) o p idx = inl [SVal (meant o p v)]) by (intros; apply memory_new; assumption).
  assert (D : forall t, accepts M o p idx v prio t = Done -> m_read M (A t) o p idx = inl [SVal (meant o p v)]) by (intros; apply memory_done; assumption).
  assert (N2 : m_read M (A (A s)) o p idx = m_read M s o p idx \/ m_read M (A (A s)) o p idx = inl [SVal (meant o p v)]).
  { destruct (N (A s)) as [E|E]; [rewrite E; apply N|right; exact E]. }
  assert (K2 : forall o' p' idx', (o', p', idx') <> (o, p, idx) -> m_read M (A (A s)) o' p' idx' = m_read M s o' p' idx') by (intros; rewrite !K by assumption; reflexivity).
  destruct (f 0%nat), (f 1%nat); cbn [fst snd]; (split; [|split]); auto; intros; discriminate.
Qed.

Section Sessions.
Context (S : Type) (I : S -> Prop) (M : machine S) (me : option address) (dev : device) (ip : list Z) (port net mac : Z).
Context (Ed : dv_addr dev = point_addr ip port net mac) (Hi : is_ip ip) (Hp : is_port port) (Hn : 0 <= net < 65536) (Hm : is_byte mac)
  (Hme : present me = false) (HM : machine_ok I M) (HMem : memory M).
Lemma call_write : forall s o p idx v prio f e id, I s -> op_ok (OWrite o p idx v prio) -> hosts M ip port net mac s (OWrite o p idx v prio) f e id ->
  let r := perform me dev e (OWrite o p idx v prio) in
  let s' := device_after M id (OWrite o p idx v prio) f (length (fst r)) s in
  (forall o' p' idx', (o', p', idx') <> (o, p, idx) -> m_read M s' o' p' idx' = m_read M s o' p' idx')
  /\ (snd r = Done -> m_read M s' o p idx = inl [SVal (meant o p v)])
  /\ (m_read M s' o p idx = m_read M s o p idx \/ m_read M s' o p idx = inl [SVal (meant o p v)]).
Proof.
  intros s o p idx v prio f e id HI Hx Hh. cbv zeta.
  destruct (call_settles S I M me dev ip port net mac s _ f e id Ed Hi Hp Hn Hm Hme HM HI Hx Hh) as (E & _).
  pose proof (settled_write S M s o p idx v prio f HMem) as W. cbv zeta in W. rewrite <- E in W. exact W.
Qed.
Lemma call_read : forall s o p idx f e id, I s -> op_ok (ORead o p idx) -> hosts M ip port net mac s (ORead o p idx) f e id ->
  device_after M id (ORead o p idx) f (length (fst (perform me dev e (ORead o p idx)))) s = s
  /\ snd (perform me dev e (ORead o p idx)) = match f O, m_read M s o p idx with
     | Arrived, inl vs => Got (answer o p idx (one_or_list (map shown vs))) | _, _ => Failed end.
Proof.
  intros s o p idx f e id HI Hx Hh.
  destruct (call_settles S I M me dev ip port net mac s _ f e id Ed Hi Hp Hn Hm Hme HM HI Hx Hh) as (E & _). cbn [settles] in E. split; congruence.
Qed.
(** an untouched property keeps its value *)
Lemma untouched : forall o p idx l s, I s -> Forall (fun x => ~ writes_to o p idx x) l -> session M ip port net mac me dev s l ->
  m_read M (final_state M me dev s l) o p idx = m_read M s o p idx /\ I (final_state M me dev s l).
Proof.
  intros o p idx. induction l as [|[x f e id|h] l IH]; intros s HI HF H; cbn [session final_state] in *; inversion HF; subst; [split; [reflexivity|exact HI]| |exfalso; apply H2; exact Logic.I].
  destruct H as (Hx & Hh & H). set (s' := device_after _ _ _ _ _ _) in *.
  assert (HI' : I s') by (apply react_stays; assumption). destruct (IH s' HI' H3 H) as (E & J). split; [|exact J]. rewrite E. destruct x as [o' p' idx'|o' p' idx' v' prio'].
  - unfold s'. destruct (call_read s o' p' idx' f e id HI Hx Hh) as (-> & _). reflexivity.
  - apply (proj1 (call_write s o' p' idx' v' prio' f e id HI Hx Hh)). intro Q. apply H2. cbn [writes_to]. symmetry. exact Q.
Qed.
Lemma read_your_writes : forall s l1 o p idx v prio f e id l2 f' e' id', I s -> Forall (stays I) l1 ->
  session M ip port net mac me dev s (l1 ++ Call (OWrite o p idx v prio) f e id :: l2 ++ [Call (ORead o p idx) f' e' id']) ->
  snd (perform me dev e (OWrite o p idx v prio)) = Done -> Forall (fun x => ~ writes_to o p idx x) l2 -> f' O = Arrived ->
  snd (perform me dev e' (ORead o p idx)) = Got (answer o p idx (shown (SVal (meant o p v)))).
Proof.
  intros s l1 o p idx v prio f e id l2 f' e' id' HI HS H D HF F. apply session_app in H. destruct H as (H1 & H).
  pose proof (final_stays S I M me dev ip port net mac HM l1 s HI HS H1) as HI1. set (s1 := final_state M me dev s l1) in *. cbn [session] in H.
  destruct H as (Hx & Hh & H). pose proof (call_write s1 o p idx v prio f e id HI1 Hx Hh) as (_ & W & _). specialize (W D). set (s2 := device_after _ _ _ _ _ _) in *.
  assert (HI2 : I s2) by (apply react_stays; assumption). apply session_app in H. destruct H as (H2 & H3). destruct (untouched o p idx l2 s2 HI2 HF H2) as (U & HI3).
  cbn [session] in H3. destruct H3 as (Hr & Hhr & _). destruct (call_read _ o p idx f' e' id' HI3 Hr Hhr) as (_ & ->). rewrite F, U, W. reflexivity.
Qed.
Lemma write_effect : forall s l o p idx v prio f e id, I s -> Forall (stays I) l ->
  session M ip port net mac me dev s (l ++ [Call (OWrite o p idx v prio) f e id]) ->
  let before := final_state M me dev s l in let after := final_state M me dev s (l ++ [Call (OWrite o p idx v prio) f e id]) in
  (forall o' p' idx', (o', p', idx') <> (o, p, idx) -> m_read M after o' p' idx' = m_read M before o' p' idx')
  /\ (m_read M after o p idx = m_read M before o p idx \/ m_read M after o p idx = inl [SVal (meant o p v)])
  /\ (snd (perform me dev e (OWrite o p idx v prio)) = Done -> m_read M after o p idx = inl [SVal (meant o p v)]).
Proof.
  intros s l o p idx v prio f e id HI HS H before after. apply session_app in H. destruct H as (H1 & H).
  pose proof (final_stays S I M me dev ip port net mac HM l s HI HS H1) as HI1. fold before in H, HI1. unfold after. rewrite final_app. fold before. cbn [session final_state] in *.
  destruct H as (Hx & Hh & _). pose proof (call_write before o p idx v prio f e id HI1 Hx Hh) as (A & B & C). split; [exact A|split; [exact C|exact B]].
Qed.
Lemma origin_state : forall o p idx l s, I s -> Forall by_call l -> session M ip port net mac me dev s l ->
  I (final_state M me dev s l) /\ (m_read M (final_state M me dev s l) o p idx = m_read M s o p idx
  \/ exists v prio f e id, In (Call (OWrite o p idx v prio) f e id) l /\ m_read M (final_state M me dev s l) o p idx = inl [SVal (meant o p v)]).
Proof.
  intros o p idx. induction l as [|[x f e id|h] l IH]; intros s HI HF H; cbn [session final_state] in *; inversion HF; subst; [auto| |contradiction].
  destruct H as (Hx & Hh & H). set (s' := device_after _ _ _ _ _ _) in *.
  assert (HI' : I s') by (apply react_stays; assumption). destruct (IH s' HI' H3 H) as (J & E). split; [exact J|].
  destruct E as [E|(v & prio & f' & e' & id' & Hin & E)]; [|right; exists v, prio, f', e', id'; split; [right; exact Hin|exact E]].
  rewrite E. destruct x as [o' p' idx'|o' p' idx' v' prio'].
  - left. unfold s'. destruct (call_read s o' p' idx' f e id HI Hx Hh) as (-> & _). reflexivity.
  - destruct (call_write s o' p' idx' v' prio' f e id HI Hx Hh) as (A & _ & C).
    destruct (classic_oid (o, p, idx) (o', p', idx')) as [Q|Q].
    + inversion Q. subst. destruct C as [C|C]; [left; exact C|right]. exists v', prio', f, e, id. split; [left; reflexivity|exact C].
    + left. apply A. exact Q.
Qed.
Lemma origin : forall s l o p idx f e id r, I s -> Forall by_call l ->
  session M ip port net mac me dev s (l ++ [Call (ORead o p idx) f e id]) -> snd (perform me dev e (ORead o p idx)) = Got r ->
  (exists vs, m_read M s o p idx = inl vs /\ r = answer o p idx (one_or_list (map shown vs)))
  \/ exists v prio f' e' id', In (Call (OWrite o p idx v prio) f' e' id') l /\ r = answer o p idx (shown (SVal (meant o p v))).
Proof.
  intros s l o p idx f e id r HI HF H G. apply session_app in H. destruct H as (H1 & H).
  destruct (origin_state o p idx l s HI HF H1) as (HI1 & E). cbn [session] in H. destruct H as (Hx & Hh & _).
  destruct (call_read _ o p idx f e id HI1 Hx Hh) as (_ & R). rewrite R in G. destruct (f 0%nat); try discriminate.
  destruct E as [E|(v & prio & f' & e' & id' & Hin & E)]; rewrite E in G.
  - left. destruct (m_read M s o p idx) as [vs|]; [|discriminate]. injection G as <-. eauto.
  - right. injection G as <-. exists v, prio, f', e', id'. auto.
Qed.
End Sessions.

(** * Points *)
Lemma put_length : forall A n (a : A) l, length (put n a l) = length l.
Proof. intros A n a l. revert n. induction l as [|b l IH]; intros [|n]; cbn [put length]; auto. Qed.
Lemma put_put : forall A n (a : A) l, put n a (put n a l) = put n a l.
Proof. intros A n a l. revert n. induction l as [|b l IH]; intros [|n]; cbn [put]; auto. now rewrite IH. Qed.
Lemma put_in : forall A n (a b : A) l, In b (put n a l) -> b = a \/ In b l.
Proof.
  intros A n a b l. revert n. induction l as [|c l IH]; intros [|n] H; cbn [put In] in *; auto.
  - destruct H; auto.
  - destruct H as [H|H]; auto. destruct (IH n H); auto.
Qed.
Lemma command_twice : forall k v x, command k v (command k v x) = command k v x.
Proof. intros k v x. unfold command. cbn [ou_slots ou_default]. now rewrite put_put. Qed.
Lemma oid_is_true : forall a b, oid_is a b = true <-> a = b.
Proof. intros [t i] [t' i']. unfold oid_is. cbn [oid_type oid_inst]. split; [intro H; assert (t = t') by lia; assert (i = i') by lia; congruence|intro H; injection H as -> ->; lia]. Qed.
Lemma at_changed : forall s o h, at_output (change o h s) o = option_map h (at_output s o).
Proof.
  induction s as [|[k x] s IH]; intros o h; cbn [change map at_output]; [reflexivity|]. cbn [fst snd].
  destruct (oid_is k o) eqn:E; cbn [at_output fst]; rewrite E; [reflexivity|apply IH].
Qed.
Lemma at_other : forall s o o' h, o' <> o -> at_output (change o h s) o' = at_output s o'.
Proof.
  induction s as [|[k x] s IH]; intros o o' h N; cbn [change map at_output]; [reflexivity|]. cbn [fst snd].
  destruct (oid_is k o) eqn:E; cbn [at_output fst].
  - destruct (oid_is k o') eqn:E'; [|apply IH; exact N]. apply oid_is_true in E, E'. congruence.
  - destruct (oid_is k o'); [reflexivity|apply IH; exact N].
Qed.
Lemma change_twice : forall s o h, (forall x, h (h x) = h x) -> change o h (change o h s) = change o h s.
Proof.
  intros s o h H. unfold change. rewrite map_map. apply map_ext. intros [k x]. cbn [fst snd]. destruct (oid_is k o) eqn:E; cbn [fst snd]; rewrite E; [now rewrite H|reflexivity].
Qed.
Definition typed_output (k : object_id) (x : output) : Prop := length (ou_slots x) = 16%nat /\ holds_type (oid_type k) (ou_default x)
  /\ forall v, In (Some v) (ou_slots x) -> holds_type (oid_type k) v.
Lemma typed_at : forall s o x, well_typed s -> at_output s o = Some x -> typed_output o x.
Proof.
  induction s as [|[k y] s IH]; intros o x H E; cbn [at_output] in E; [discriminate|]. inversion H. subst.
  destruct (oid_is k o) eqn:Q; [|apply IH; assumption]. apply oid_is_true in Q. injection E as <-. subst k. exact H2.
Qed.
Lemma first_typed : forall (P : value -> Prop) l d, P d -> (forall v, In (Some v) l -> P v) -> P (first_filled l d).
Proof. intros P. induction l as [|[v|] l IH]; intros d Hd H; cbn [first_filled]; [exact Hd|apply H; left; reflexivity|]. apply IH; [exact Hd|]. intros v Hv. apply H. right. exact Hv. Qed.
Lemma typed_present : forall o x, typed_output o x -> holds_type (oid_type o) (present_value x).
Proof. intros o x (_ & Hd & H). unfold present_value; apply (first_typed (holds_type (oid_type o))); assumption. Qed.
Lemma command_typed : forall o k v x, typed_output o x -> writable v -> fits_type (oid_type o) v = true -> typed_output o (command k v x).
Proof.
  intros o k v x (L & Hd & H) Hv Hf. unfold typed_output, command. cbn [ou_slots ou_default]. rewrite put_length. split; [exact L|split; [exact Hd|]].
  intros w Hw. apply put_in in Hw. destruct Hw as [Hw|Hw]; [|apply H; exact Hw]. unfold holds_type. unfold content in Hw.
  destruct v; try discriminate; injection Hw as ->; try (cbn [fits_type] in Hf; discriminate); (split; [exact Hf|split; [discriminate|exact Hv]]).
Qed.
Lemma change_typed : forall s o k v, well_typed s -> writable v -> fits_type (oid_type o) v = true -> well_typed (change o (command k v) s).
Proof.
  intros s o k v H Hv Hf. unfold well_typed, change in *. apply Forall_map. eapply Forall_impl; [|exact H]. intros [k' x] Hx. cbn [fst snd] in *.
  destruct (oid_is k' o) eqn:E; cbn [fst snd]; [|exact Hx]. apply oid_is_true in E. subst k'. exact (command_typed o k v x Hx Hv Hf).
Qed.
Lemma commandable_ok : machine_ok well_typed commandable.
Proof.
  split.
  - intros s o p idx H. cbn [commandable m_read]. destruct (at_output s o) as [x|] eqn:E; [|unfold error_range; cbn [fst snd]; lia].
    destruct ((p =? 85) && (idx =? whole)); [|unfold error_range; cbn [fst snd]; lia]. constructor; [|constructor].
    exact (proj2 (proj2 (typed_present o x (typed_at s o x H E)))).
  - intros s o p idx v prio H Hv _. cbn [commandable m_write]. destruct (at_output s o) as [x|]; [|unfold error_range; cbn [fst snd]; lia].
    destruct (negb ((p =? 85) && (idx =? whole))); [unfold error_range; cbn [fst snd]; lia|].
    destruct (fits_type (oid_type o) v) eqn:F; cbn [negb]; [|unfold error_range; cbn [fst snd]; lia].
    destruct ((16 <? effective prio) || (effective prio <? 1)); [unfold error_range; cbn [fst snd]; lia|]. apply change_typed; assumption.
Qed.

(** calls of package network as requests *)
Definition converted (x : point_op) (y : seen) : point_seen :=
  match y with
  | Got r => match x with PRead _ => Number (snd (ToFloat32 r)) | _ => Number (snd (ToUint32 r)) end
  | Done => Commanded | Failed => NoResult | Crashed => PointCrash
  end.
Lemma point_call_is : forall me d e x, point_op_ok x ->
  point_call me d e x = (fst (perform me (as_device (nd_dev d)) e (means x)), converted x (snd (perform me (as_device (nd_dev d)) e (means x)))).
Proof.
  intros me d e x H. destruct x as [p|p v|p|p v|p prio]; cbn [point_call means perform].
  - unfold PointReadFloat32. change ArrayAll with whole. pose proof (read_request_eq e me d (point_id p) 85 whole) as E. cbn [point_id oid_inst oid_type] in E. rewrite E.
    change (mkOid (pt_type p) (pt_inst p)) with (point_id p).
    destruct (ReadProperty e me (as_device (nd_dev d)) (request (point_id p) 85 whole)) as [g [r|c| |]]; cbn [nbind nret seen_number fst snd converted]; rewrite ?app_nil_r; reflexivity.
  - unfold PointWriteAnalogue. pose proof (write_request_eq e me d (point_id p) 85 (VReal v) (pt_prio p) eq_refl Logic.I) as E. cbn [point_id oid_inst oid_type] in E. rewrite E.
    change (mkOid (pt_type p) (pt_inst p)) with (point_id p).
    destruct (WriteProperty e me (as_device (nd_dev d)) _) as [g [r|c| |]]; reflexivity.
  - unfold PointReadBool. change ArrayAll with whole. pose proof (read_request_eq e me d (point_id p) 85 whole) as E. cbn [point_id oid_inst oid_type] in E. rewrite E.
    change (mkOid (pt_type p) (pt_inst p)) with (point_id p).
    destruct (ReadProperty e me (as_device (nd_dev d)) (request (point_id p) 85 whole)) as [g [r|c| |]]; cbn [nbind nret seen_number fst snd converted]; rewrite ?app_nil_r; reflexivity.
  - unfold PointWriteBool. pose proof (write_request_eq e me d (point_id p) 85 (VUint v) (pt_prio p) eq_refl Logic.I) as E. cbn [point_id oid_inst oid_type] in E. rewrite E.
    change (mkOid (pt_type p) (pt_inst p)) with (point_id p).
    destruct (WriteProperty e me (as_device (nd_dev d)) _) as [g [r|c| |]]; reflexivity.
  - unfold PointReleasePriority. destruct H as (_ & H). replace ((16 <? prio) || (prio <? 1)) with false by lia.
    pose proof (write_null_eq e me d (point_id p) 85 VNil prio) as E. cbn [point_id oid_inst oid_type] in E. rewrite E.
    change (mkOid (pt_type p) (pt_inst p)) with (point_id p).
    destruct (WriteProperty e me (as_device (nd_dev d)) _) as [g [r|c| |]]; reflexivity.
Qed.
Lemma means_ok : forall x, point_op_ok x -> op_ok (means x).
Proof.
  intros x H. destruct x as [p|p v|p|p v|p prio]; cbn [point_op_ok means op_ok] in *; destruct H as (Ho & H);
    repeat (split; [solve [assumption|apply H|unfold valid_property; lia|exact arrayall_u32|unfold is_byte; lia|exact Logic.I]|]).
  - exact arrayall_u32.
  - split; [|intros; discriminate]. intro B. exfalso. unfold binary_pv, point_id in B. cbn [oid_type] in B. destruct H as (A & _). red in A. lia.
  - exact arrayall_u32.
  - split; [|intros; discriminate]. intros _. right. eauto.
  - split; [|intros; discriminate]. auto.
Qed.
Lemma commanded_settles : forall s o v prio f, fits_type (oid_type o) (meant o 85 v) = true -> is_byte prio ->
  let r := settles commandable s (OWrite o 85 whole v prio) f in
  (match fst r with Done => Commanded | Failed => NoResult | _ => PointCrash end, snd r) = commanded s o (meant o 85 v) prio f.
Proof.
  intros s o v prio f Hf Hb r. subst r. cbn [settles]. unfold commanded.
  assert (A : forall t, accept commandable o 85 whole v prio t = match at_output t o with Some _ => if 16 <? effective prio then t else change o (command (effective prio) (meant o 85 v)) t | None => t end).
  { intro t. unfold accept. cbn [commandable m_write]. destruct (at_output t o); [|reflexivity]. rewrite Hf. cbn [negb Z.eqb Pos.eqb andb]. rewrite Z.eqb_refl. cbn [negb].
    replace (effective prio <? 1) with false by (unfold effective, is_byte in *; destruct (prio =? 0) eqn:Q; lia). rewrite orb_false_r. destruct (16 <? effective prio); reflexivity. }
  assert (D : forall t, accepts commandable o 85 whole v prio t = match at_output t o with Some _ => if 16 <? effective prio then Failed else Done | None => Failed end).
  { intro t. unfold accepts. cbn [commandable m_write]. destruct (at_output t o); [|reflexivity]. rewrite Hf. cbn [negb Z.eqb Pos.eqb andb]. rewrite Z.eqb_refl. cbn [negb].
    replace (effective prio <? 1) with false by (unfold effective, is_byte in *; destruct (prio =? 0) eqn:Q; lia). rewrite orb_false_r. destruct (16 <? effective prio); reflexivity. }
  destruct (at_output s o) as [x|] eqn:X.
  - destruct (16 <? effective prio) eqn:P.
    + unfold handled, confirmed. destruct (f 0%nat), (f 1%nat); cbn [fst snd]; rewrite ?D, ?A, ?X, ?P; reflexivity.
    + assert (T : change o (command (effective prio) (meant o 85 v)) (change o (command (effective prio) (meant o 85 v)) s) = change o (command (effective prio) (meant o 85 v)) s)
        by (apply change_twice; intro; apply command_twice).
      unfold handled, confirmed. destruct (f 0%nat), (f 1%nat); cbn [fst snd]; rewrite ?A, ?D, ?A, ?X, ?P, ?at_changed, ?X; cbn [option_map]; rewrite ?T; reflexivity.
  - destruct (f 0%nat), (f 1%nat); cbn [fst snd]; rewrite ?D, ?A, ?X, ?D, ?A, ?X; reflexivity.
Qed.
Lemma point_settled : forall s x f, well_typed s -> point_op_ok x ->
  (converted x (fst (settles commandable s (means x) f)), snd (settles commandable s (means x) f)) = point_settles s x f.
Proof.
  assert (RD : forall s p f, well_typed s ->
    settles commandable s (ORead (point_id p) 85 whole) f = (match f O, at_output s (point_id p) with
       | Arrived, Some y => Got (answer (point_id p) 85 whole (as_read (present_value y))) | _, _ => Failed end, s)).
  { intros s p f H. cbn [settles commandable m_read]. destruct (at_output s (point_id p)); [|destruct (f 0%nat); reflexivity]. destruct (f 0%nat); reflexivity. }
  intros s x f HW H. destruct x as [p|p v|p|p v|p prio]; cbn [means point_settles]; cbn [point_op_ok] in H.
  - rewrite RD by assumption. cbn [fst snd]. destruct H as (_ & Ha). destruct (f 0%nat); try reflexivity. destruct (at_output s (point_id p)) as [y|] eqn:E; [|reflexivity].
    pose proof (typed_present _ _ (typed_at s _ y HW E)) as (T & N & R). cbn [converted]. f_equal. f_equal. red in Ha. unfold point_id in T. cbn [oid_type] in T.
    destruct (present_value y); cbn [fits_type] in T; try discriminate; try contradiction; try lia; reflexivity.
  - change (commanded s (point_id p) (VReal v) (pt_prio p) f) with (commanded s (point_id p) (meant (point_id p) 85 (VReal v)) (pt_prio p) f). rewrite <- (commanded_settles s (point_id p) (VReal v) (pt_prio p) f); [|cbn [meant fits_type point_id oid_type]; destruct H as (_ & Ha & _); red in Ha; lia|apply H].
    cbv zeta. set (r := settles _ _ _ _). destruct (fst r) eqn:Q; try reflexivity. exfalso. subst r. cbn [settles] in Q. unfold accepts in Q. destruct (f 0%nat), (f 1%nat); cbn [fst] in Q; try discriminate;
      repeat (match type of Q with context [match ?z with inl _ => _ | inr _ => _ end] => destruct z end); discriminate.
  - rewrite RD by assumption. cbn [fst snd]. destruct H as (_ & Ha). destruct (f 0%nat); try reflexivity. destruct (at_output s (point_id p)) as [y|] eqn:E; [|reflexivity].
    pose proof (typed_present _ _ (typed_at s _ y HW E)) as (T & N & R). cbn [converted]. f_equal. f_equal. red in Ha. unfold point_id in T. cbn [oid_type] in T.
    destruct (present_value y); cbn [fits_type] in T; try discriminate; try contradiction; try lia; reflexivity.
  - rewrite <- (commanded_settles s (point_id p) (VUint v) (pt_prio p) f); [|unfold meant, binary_pv, point_id; cbn [oid_type]; destruct H as (_ & Ha & _); red in Ha; change (85 =? 85) with true; rewrite andb_true_r; destruct ((pt_type p =? 4) || (pt_type p =? 5)) eqn:Q; cbn [fits_type]; lia|apply H].
    cbv zeta. set (r := settles _ _ _ _). destruct (fst r) eqn:Q; try reflexivity. exfalso. subst r. cbn [settles] in Q. unfold accepts in Q. destruct (f 0%nat), (f 1%nat); cbn [fst] in Q; try discriminate;
      repeat (match type of Q with context [match ?z with inl _ => _ | inr _ => _ end] => destruct z end); discriminate.
  - change (commanded s (point_id p) VNull prio f) with (commanded s (point_id p) (meant (point_id p) 85 VNull) prio f). rewrite <- (commanded_settles s (point_id p) VNull prio f); [|reflexivity|unfold is_byte; lia].
    cbv zeta. set (r := settles _ _ _ _). destruct (fst r) eqn:Q; try reflexivity. exfalso. subst r. cbn [settles] in Q. unfold accepts in Q. destruct (f 0%nat), (f 1%nat); cbn [fst] in Q; try discriminate;
      repeat (match type of Q with context [match ?z with inl _ => _ | inr _ => _ end] => destruct z end); discriminate.
Qed.

Lemma point_step : forall me d ip port net mac s x f e id, opened d ip port net mac -> own me -> well_typed s -> point_op_ok x ->
  hosts commandable ip port net mac s (means x) f e id ->
  (snd (point_call me d e x), device_after commandable id (means x) f (length (fst (point_call me d e x))) s) = point_settles s x f
  /\ well_typed (snd (point_settles s x f)).
Proof.
  intros me d ip port net mac s x f e id Hop Hme HW Hx Hh. destruct Hop as (Hi & Hp & Hn & Hm & Ed).
  destruct (call_settles _ well_typed commandable me (as_device (nd_dev d)) ip port net mac s (means x) f e id Ed Hi Hp Hn Hm (own_absent me Hme) commandable_ok HW (means_ok x Hx) Hh) as (E & T).
  rewrite point_call_is by exact Hx. rewrite <- point_settled by assumption. cbn [fst snd]. rewrite <- E in *. cbn [fst snd] in *. auto.
Qed.
Lemma points_settle : forall me d ip port net mac, opened d ip port net mac -> own me -> forall l s, well_typed s ->
  point_session ip port net mac me d s l -> (points_seen me d l, points_final me d s l) = points_ought s l.
Proof.
  intros me d ip port net mac Hop Hme. induction l as [|[x f e id|h] l IH]; intros s HW H; cbn [point_session points_seen points_final points_ought] in *.
  - reflexivity.
  - destruct H as (Hx & Hh & H). destruct (point_step me d ip port net mac s x f e id Hop Hme HW Hx Hh) as (E & T). cbv zeta. rewrite <- E in *. cbn [fst snd] in *.
    specialize (IH _ T H). rewrite <- IH. reflexivity.
  - destruct H as (HW' & H). apply IH; assumption.
Qed.
Lemma first_put : forall n v l d, (n < length l)%nat -> first_filled (put n (Some v) l) d = first_filled (firstn n l) v.
Proof.
  induction n as [|n IH]; intros v [|[w|] l] d H; cbn [length] in H; try lia; cbn [put firstn first_filled]; try reflexivity. apply IH. lia.
Qed.
Lemma put_back : forall n (a : option value) l, nth n l None = None -> put n None (put n a l) = l.
Proof.
  induction n as [|n IH]; intros a [|b l] H; cbn [nth put] in *; try congruence. rewrite IH by exact H. reflexivity.
Qed.
Lemma put_none : forall n (l : list (option value)), nth n l None = None -> put n None l = l.
Proof.
  induction n as [|n IH]; intros [|b l] H; cbn [nth put] in *; try congruence. rewrite IH by exact H. reflexivity.
Qed.
Lemma write_shows : forall me d ip port net mac s p x f e id f' e' id' y, opened d ip port net mac -> own me -> well_typed s ->
  point_session ip port net mac me d s [PCall (PWrite p x) f e id; PCall (PRead p) f' e' id'] ->
  snd (point_call me d e (PWrite p x)) = Commanded -> f' O = Arrived -> at_output s (point_id p) = Some y ->
  snd (point_call me d e' (PRead p)) = Number (number_in (first_filled (firstn (Z.to_nat (effective (pt_prio p) - 1)) (ou_slots y)) (VReal x))).
Proof.
  intros me d ip port net mac s p x f e id f' e' id' y Hop Hme HW H C F Y. pose proof H as (Hx & _ & _).
  pose proof (typed_at s _ y HW Y) as (L & _). pose proof (points_settle me d ip port net mac Hop Hme _ s HW H) as E. cbn [points_seen points_final points_ought point_settles] in E. cbv zeta in E. cbn [fst snd] in E.
  pose proof (f_equal (fun q => nth 0 (fst q) PointCrash) E) as E1. pose proof (f_equal (fun q => nth 1 (fst q) PointCrash) E) as E2. cbn [nth fst] in E1, E2. rewrite E2. clear E. clear E2. rewrite C in E1. clear C H. unfold commanded in *. rewrite Y in *. destruct (16 <? effective (pt_prio p)) eqn:P; cbn [fst snd] in *; [discriminate|].
  destruct (confirmed f) eqn:Q; [|discriminate]. assert (HD : handled f = true) by (unfold confirmed, handled in *; destruct (f 0%nat), (f 1%nat); congruence).
  rewrite HD, F, at_changed, Y. cbn [option_map]. unfold present_value, command. cbn [ou_slots ou_default content]. do 2 f_equal. apply first_put. rewrite L.
  destruct Hx as (_ & _ & Hb & _). unfold effective, is_byte in *. destruct (pt_prio p =? 0) eqn:Z0; lia.
Qed.
Lemma release_restores : forall me d ip port net mac s p x f e id k f' e' id' f2 e2 id2 y, opened d ip port net mac -> own me -> well_typed s ->
  point_session ip port net mac me d s [PCall (PWrite p x) f e id; PCall (PRelease p k) f' e' id'; PCall (PRead p) f2 e2 id2] ->
  effective (pt_prio p) = k -> handled f' = true -> f2 O = Arrived ->
  at_output s (point_id p) = Some y -> nth (Z.to_nat (k - 1)) (ou_slots y) None = None ->
  snd (point_call me d e2 (PRead p)) = Number (number_in (present_value y)).
Proof.
  intros me d ip port net mac s p x f e id k f' e' id' f2 e2 id2 y Hop Hme HW H K R F Y N. pose proof H as (_ & _ & Hr & _). destruct Hr as (_ & Hk).
  pose proof (points_settle me d ip port net mac Hop Hme _ s HW H) as E. cbn [points_seen points_final points_ought point_settles] in E. cbv zeta in E. cbn [fst snd] in E.
  apply (f_equal (fun q => nth 2 (fst q) PointCrash)) in E. cbn [nth fst] in E. rewrite E. clear E H. rewrite F. unfold commanded at 2. rewrite Y, K. replace (16 <? k) with false by lia. cbn [snd].
  assert (EK : effective k = k) by (unfold effective; replace (k =? 0) with false by lia; reflexivity).
  assert (B : forall t z, at_output t (point_id p) = Some z -> put (Z.to_nat (k - 1)) None (ou_slots z) = ou_slots y -> ou_default z = ou_default y ->
    Number (number_in (present_value y)) = match at_output (snd (commanded t (point_id p) VNull k f')) (point_id p) with Some w => Number (number_in (present_value w)) | None => NoResult end).
  { intros t z A S1 D. unfold commanded. rewrite A, EK. replace (16 <? k) with false by lia. cbn [snd]. rewrite R, at_changed, A. cbn [option_map]. unfold present_value, command. cbn [ou_slots ou_default content]. now rewrite S1, D. }
  symmetry. destruct (handled f).
  - apply (B _ (command k (VReal x) y)); [now rewrite at_changed, Y|unfold command; cbn [ou_slots]; apply put_back; exact N|reflexivity].
  - apply (B _ y Y); [apply put_none; exact N|reflexivity].
Qed.
(** other points are not affected *)
Lemma points_apart : forall s x f o, op_point x <> o ->
  at_output (snd (point_settles s x f)) o = at_output s o.
Proof.
  intros s x f o N. destruct x; cbn [op_point] in N; cbn [point_settles snd]; try reflexivity; unfold commanded; destruct (at_output s (point_id p)); try reflexivity;
    destruct (16 <? _); try reflexivity; destruct (handled f); try reflexivity; cbn [snd]; apply at_other; congruence.
Qed.

Lemma points_untouched : forall me d ip port net mac o, opened d ip port net mac -> own me -> forall l s, well_typed s -> point_session ip port net mac me d s l ->
  Forall (fun x => match x with PCall x _ _ _ => op_point x <> o | PElsewhere _ => False end) l ->
  at_output (points_final me d s l) o = at_output s o.
Proof.
  intros me d ip port net mac o Hop Hme. induction l as [|[x f e id|h] l IH]; intros s HW H HF; cbn [point_session points_final] in *; inversion HF; subst; [reflexivity| |contradiction].
  destruct H as (Hx & Hh & H). destruct (point_step me d ip port net mac s x f e id Hop Hme HW Hx Hh) as (E & T).
  pose proof (points_apart s x f o H2) as A. rewrite <- E in *. cbn [fst snd] in *. rewrite IH by assumption. exact A.
Qed.

(** * Every course of events is possible *)
Definition reply_of {S} (M : machine S) (id : Z) (x : op) (s : S) : payload :=
  match x with
  | ORead o p idx => match m_read M s o p idx with
                     | inl vs => PBytes (spec_read_ack id o p idx vs)
                     | inr (c, k) => PErr c (if c mod 8 =? 5 then k else 145)
                     end
  | OWrite o p idx v prio => match m_write M s o p idx (meant o p v) prio with
                             | inl _ => PBytes (spec_simple_ack id 15)
                             | inr (c, k) => PErr c (if c mod 8 =? 5 then k else 145)
                             end
  end.
Definition env_for {S} (M : machine S) (s : S) (x : op) (f : nat -> fate) (id : Z) : env :=
  mkEnv (Some id) (fun k _ => match f k with
    | NotSent => mkAtt false None
    | RequestLost | AnswerLost => mkAtt true None
    | Arrived => mkAtt true (Some (reply_of M id x (device_after M id x f k s)))
    end).
Lemma env_hosts : forall (S : Type) (I : S -> Prop) (M : machine S) ip port net mac s x f id, machine_ok I M -> I s -> op_ok x -> is_byte id ->
  hosts M ip port net mac s x f (env_for M s x f id) id.
Proof.
  intros S I M ip port net mac s x f id HM HI Hx Hb. split; [reflexivity|]. split; [exact Hb|]. cbv zeta. intro k. cbn [env_for ev_att].
  pose proof (react_stays S I M id x f HM Hx k s HI) as HK. destruct (f k); cbn [at_sent at_reply]; auto. split; [reflexivity|].
  set (n := mkNpdu 1 None None 0 false 0 false 0 0).
  assert (Hn : npdu_ok n) by (unfold npdu_ok, is_byte; cbn; repeat split; try discriminate; auto).
  assert (Hf : frame_func 10) by (left; reflexivity).
  exists (fun _ => true), (mkAddr 0 0 0 [] []), 10, n, (reply_of M id x (device_after M id x f k s)).
  split; [exact Hf|]. split; [exact Hn|]. split; [reflexivity|]. split; [reflexivity|].
  destruct HM as (MR & MW). destruct x as [o p idx|o p idx v prio]; cbn [react reply_of snd].
  - specialize (MR (device_after M id (ORead o p idx) f k s) o p idx HK). destruct (m_read M _ o p idx) as [vs|[c y]].
    + unfold spec_read_ack, spec_complex_ack. cbn [app]. rewrite recv_ack; try assumption; [left; reflexivity|reflexivity|unfold is_byte; lia|right; reflexivity].
    + destruct MR as (Hc & Hk). rewrite recv_error by (try assumption; reflexivity). left. reflexivity.
  - specialize (MW (device_after M id (OWrite o p idx v prio) f k s) o p idx (meant o p v) prio HK (meant_writable o p v ltac:(apply Hx)) (meant_standard o p v ltac:(apply Hx))).
    destruct (m_write M _ o p idx (meant o p v) prio) as [s'|[c y]]; cbn [snd].
    + unfold spec_simple_ack. rewrite recv_ack; try assumption; [left; reflexivity|reflexivity|unfold is_byte; lia|left; reflexivity].
    + destruct MW as (Hc & Hk). rewrite recv_error by (try assumption; reflexivity). left. reflexivity.
Qed.
Lemma any_session : forall (S : Type) (I : S -> Prop) (M : machine S) ip port net mac me dev, machine_ok I M ->
  forall l s, I s -> Forall (fun y => op_ok (fst (fst y)) /\ is_byte (snd y)) l ->
  exists evs, Forall2 (fun y ev => exists e, ev = Call (fst (fst y)) (snd (fst y)) e (snd y)) l evs /\ session M ip port net mac me dev s evs.
Proof.
  intros S I M ip port net mac me dev HM. induction l as [|[[x f] id] l IH]; intros s HI HF.
  - exists []. split; [constructor|exact Logic.I].
  - inversion HF. subst. destruct H1 as (Hx & Hb). cbn [fst snd] in *.
    pose proof (react_stays S I M id x f HM Hx (length (fst (perform me dev (env_for M s x f id) x))) s HI) as HI'.
    destruct (IH _ HI' H2) as (evs & F2 & Hs). exists (Call x f (env_for M s x f id) id :: evs). split.
    + constructor; [eexists; reflexivity|exact F2].
    + cbn [session]. split; [exact Hx|]. split; [exact (env_hosts S I M ip port net mac s x f id HM HI Hx Hb)|exact Hs].
Qed.
Lemma any_points : forall ip port net mac me d, opened d ip port net mac -> own me ->
  forall l s, well_typed s -> Forall (fun y => point_op_ok (fst (fst y)) /\ is_byte (snd y)) l ->
  exists evs, Forall2 (fun y ev => exists e, ev = PCall (fst (fst y)) (snd (fst y)) e (snd y)) l evs /\ point_session ip port net mac me d s evs.
Proof.
  intros ip port net mac me d Hop Hme. induction l as [|[[x f] id] l IH]; intros s HW HF.
  - exists []. split; [constructor|exact Logic.I].
  - inversion HF. subst. destruct H1 as (Hx & Hb). cbn [fst snd] in *.
    pose proof (env_hosts _ well_typed commandable ip port net mac s (means x) f id commandable_ok HW (means_ok x Hx) Hb) as Hh.
    destruct (point_step me d ip port net mac s x f (env_for commandable s (means x) f id) id Hop Hme HW Hx Hh) as (E & T). rewrite <- E in T. cbn [snd] in T.
    destruct (IH _ T H2) as (evs & F2 & Hs). exists (PCall x f (env_for commandable s (means x) f id) id :: evs). split.
    + constructor; [eexists; reflexivity|exact F2].
    + cbn [point_session]. split; [exact Hx|]. split; [exact Hh|exact Hs].
Qed.
