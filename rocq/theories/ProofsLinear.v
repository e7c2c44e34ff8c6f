(** * Calls that share a client and devices: each result is that of some moment *)

Require Import List ZArith Bool Lia Permutation.
From Coq Require Import ZifyBool ZifyNat.
From Verif Require Import ModelNet ModelSystem SpecSystem SpecWire SpecLayers SpecServices SpecObs SpecClient SpecNet SpecDevice SpecOrder SpecLinear
  ProofsServiceProps ProofsRecv ProofsCall ProofsTypes ProofsNet ProofsDevice ProofsInject.
From Verif Require ModelTsm SpecTsm ProofsTsm ProofsTsmProps.
From Verif Require Import ProofsSystem ProofsSystemProps ProofsOrder.
Import ListNotations.
Import ModelTsm SpecTsm ProofsTsm ProofsTsmProps.
Open Scope Z_scope.

(** ** What a call sends, and what it makes of its answers *)

Inductive bounded {A} (g : datagram) : nat -> prog A -> Prop :=
| B_ret : forall n r, bounded g n (PRet r)
| B_try : forall n k, (forall y, bounded g n (k y)) -> bounded g (S n) (PTry g k).
Inductive honest {A} (L : payload -> Prop) (ok : outcome A -> Prop) : prog A -> Prop :=
| H_ret : forall r, ok r -> honest L ok (PRet r)
| H_try : forall g k, (forall e, honest L ok (k (inl e))) -> (forall p, L p -> honest L ok (k (inr p))) -> honest L ok (PTry g k).

Lemma bounded_pmap : forall A B (f : A -> B) g n p, bounded g n p -> bounded g n (pmap f p).
Proof. intros A B f g n p H. induction H; cbn [pmap]; constructor; auto. Qed.
Lemma honest_pmap : forall A B (f : A -> B) L (ok : outcome A -> Prop) (ok' : outcome B -> Prop) p,
  (forall r, ok r -> ok' (omap f r)) -> honest L ok p -> honest L ok' (pmap f p).
Proof. intros A B f L ok ok' p Q H. induction H; cbn [pmap]; constructor; auto. Qed.

Lemma feed_bounded : forall hs g n p tr q, bounded g n p -> feed p hs = Some (tr, q) ->
  exists m, n = (length tr + m)%nat /\ (forall d, In d tr -> d = g) /\ bounded g m q.
Proof.
  induction hs as [|y hs IH]; intros g n p tr q B F; cbn [feed] in F.
  - injection F as <- <-. exists n. split; [reflexivity|]. split; [intros d []|exact B].
  - destruct p as [r|g0 k]; [discriminate|]. destruct (feed (k y) hs) as [[tr1 q1]|] eqn:E; [|discriminate]. injection F as <- <-.
    inversion B as [|n0 k0 Bk]; subst. destruct (IH _ n0 (k y) tr1 q1 (Bk y) E) as (m & -> & Hd & Bm).
    exists m. split; [reflexivity|]. split; [|exact Bm]. intros d [<-|H]; auto.
Qed.
Lemma feed_honest : forall hs L ok p tr r, honest L ok p -> (forall pl, In (inr pl) hs -> L pl) ->
  feed p hs = Some (tr, PRet r) -> ok r.
Proof.
  induction hs as [|y hs IH]; intros L ok p tr r H HL F; cbn [feed] in F.
  - injection F as <- ->. inversion H. assumption.
  - destruct p as [r0|g0 k]; [discriminate|]. destruct (feed (k y) hs) as [[tr1 q1]|] eqn:E; [|discriminate]. injection F as <- ->.
    inversion H as [|g1 k1 He Hp]; subst. eapply (IH L ok (k y)); [|intros pl J; apply HL; right; exact J|exact E].
    destruct y as [e|pl]; [apply He|apply Hp, HL; left; reflexivity].
Qed.

Lemma rp_bounded : forall n dest data g e, send_dgram dest data None = Some g -> bounded g n (rp_prog n dest data e).
Proof.
  induction n as [|n IH]; intros dest data g e Sg; cbn [rp_prog]; [constructor|]. unfold try_send. rewrite Sg. constructor.
  intros [x|[b|c x]]; [apply IH; exact Sg| |constructor].
  destruct (check_apdu _) as [[x|] d]; [apply IH; exact Sg|].
  destruct (dec_ReadProperty d) as [[[out|] [x|]] d'| |]; try constructor; apply IH; exact Sg.
Qed.
Lemma wp_bounded : forall n dest data g e, send_dgram dest data None = Some g -> bounded g n (wp_prog n dest data e).
Proof.
  induction n as [|n IH]; intros dest data g e Sg; cbn [wp_prog]; [constructor|]. unfold try_send. rewrite Sg. constructor.
  intros [x|[b|c x]]; [apply IH; exact Sg| |constructor].
  destruct (fst _) as [x|]; [apply IH; exact Sg|constructor].
Qed.
Lemma rp_honest : forall n dest data g e (L : payload -> Prop) (ok : outcome property_data -> Prop), send_dgram dest data None = Some g ->
  (forall err, ok (CErr err)) ->
  (forall pl, L pl -> (exists b out, pl = PBytes b /\ rp_accepts b out /\ ok (COk out)) \/ exists c x, pl = PErr c x) ->
  honest L ok (rp_prog n dest data e).
Proof.
  induction n as [|n IH]; intros dest data g e L ok Sg HE HL; cbn [rp_prog]; [constructor; apply HE|]. unfold try_send. rewrite Sg. constructor.
  - intro x. eapply IH; eassumption.
  - intros pl Hpl. destruct (HL pl Hpl) as [(b & out & -> & (d1 & d2 & E1 & E2 & E3) & O)|(c & x & ->)].
    + rewrite E1, E2, E3. constructor. exact O.
    + constructor. apply HE.
Qed.
Lemma wp_honest : forall n dest data g e (L : payload -> Prop) (ok : outcome unit -> Prop), send_dgram dest data None = Some g ->
  (forall err, ok (CErr err)) ->
  (forall pl, L pl -> (exists b, pl = PBytes b /\ fst (check_apdu (newDecoder b)) = None /\ ok (COk tt)) \/ exists c x, pl = PErr c x) ->
  honest L ok (wp_prog n dest data e).
Proof.
  induction n as [|n IH]; intros dest data g e L ok Sg HE HL; cbn [wp_prog]; [constructor; apply HE|]. unfold try_send. rewrite Sg. constructor.
  - intro x. eapply IH; eassumption.
  - intros pl Hpl. destruct (HL pl Hpl) as [(b & -> & E1 & O)|(c & x & ->)].
    + rewrite E1. constructor. exact O.
    + constructor. apply HE.
Qed.

(** the payload of an answer of the device *)
Definition reacts {S} (M : machine S) (x : SpecDevice.op) (s : S) (pl : payload) : Prop :=
  match x with
  | ORead o p idx => match m_read M s o p idx with
                     | inl vs => exists id, pl = PBytes (spec_read_ack id o p idx vs)
                     | inr _ => exists c k, pl = PErr c k
                     end
  | OWrite o p idx v prio => match m_write M s o p idx (meant o p v) prio with
                             | inl _ => exists id, pl = PBytes (spec_simple_ack id 15)
                             | inr _ => exists c k, pl = PErr c k
                             end
  end.

Lemma reacts_arrived : forall S (I : S -> Prop) (M : machine S) id x s known src fn n id' pl, machine_ok I M -> I s -> op_ok x ->
  frame_func fn -> npdu_ok n -> n_netmsg n = false ->
  In (ModelClient.EDeliver id' pl) (fst (handleMsg known src (spec_bvlc fn (spec_npdu n ++ snd (react M id x s))))) -> id' = id /\ reacts M x s pl.
Proof.
  intros S I M id x s known src fn n id' pl (MR & MW) HI Hx Hf Hn Hm H.
  destruct x as [o p idx|o p idx v prio]; cbn [react snd reacts] in *.
  - specialize (MR s o p idx HI). destruct (m_read M s o p idx) as [vs|[c k]].
    + unfold spec_read_ack, spec_complex_ack in *. cbn [app] in *.
      rewrite recv_ack in H; try assumption; [|unfold is_byte; lia|right; reflexivity].
      cbn [fst In] in H. destruct H as [H|[]]. injection H as <- <-. split; [reflexivity|]. exists id. reflexivity.
    + destruct MR as [Hc Hk]. rewrite recv_error in H by assumption. cbn [fst In] in H. destruct H as [H|[]]. injection H as <- <-.
      split; [reflexivity|]. eexists. eexists. reflexivity.
  - destruct Hx as (_ & _ & _ & _ & Hv & Hs & _).
    specialize (MW s o p idx (meant o p v) prio HI (meant_writable o p v Hv) (meant_standard o p v Hs)).
    destruct (m_write M s o p idx (meant o p v) prio) as [s'|[c k]]; cbn [snd] in H.
    + unfold spec_simple_ack in *. rewrite recv_ack in H; try assumption; [|unfold is_byte; lia|left; reflexivity].
      cbn [fst In] in H. destruct H as [H|[]]. injection H as <- <-. split; [reflexivity|]. exists id. reflexivity.
    + destruct MW as [Hc Hk]. rewrite recv_error in H by assumption. cbn [fst In] in H. destruct H as [H|[]]. injection H as <- <-.
      split; [reflexivity|]. eexists. eexists. reflexivity.
Qed.

Lemma start_form : forall me dev t id x, spot_ok t -> lives dev t -> op_ok x -> is_byte id -> present me = false ->
  exists dest data, send_dgram dest data None = Some (request_to t id x)
  /\ start me (call_of dev x) (Some id) = match x with
     | ORead _ _ _ => pmap AnRead (rp_prog 1 dest data CNoData)
     | OWrite _ _ _ _ _ => pmap (fun _ => AnDone) (wp_prog 2 dest data CNoData)
     end.
Proof.
  intros me dev [ip port net mac0] id x (Hi & Hp & Hn & _) (mac & Hm & Ed & Em) Hx Hid Hme. cbn [sp_ip sp_port sp_net sp_mac] in *.
  change (dv_addr dev = point_addr ip port net mac) in Ed.
  destruct (point_header ip port net mac me Hn Hm Hme) as (hdr & EH & HL & HF).
  destruct (point_present ip port net mac Hi Hp) as [HU HA]. set (dest := addr_SetLength (point_addr ip port net mac)) in *.
  assert (PF : forall apdu, point_frame net mac apdu = point_frame net mac0 apdu).
  { intro apdu. rewrite Em. unfold point_frame. destruct (net =? 0); reflexivity. }
  assert (SD : forall apdu, zlen apdu <= 65500 -> send_dgram dest (hdr ++ apdu) None = Some (mkDgram ip port (point_frame net mac0 apdu))).
  { intros apdu HL'. unfold send_dgram. rewrite HU, frame_small by (rewrite zlen_app; lia). unfold send_func.
    replace (0 <? zlen (a_adr dest)) with true by lia. rewrite HF, PF. reflexivity. }
  assert (U : u8 id = id) by (unfold u8; unfold is_byte in Hid; apply Z.mod_small; lia).
  exists dest, (hdr ++ request_of id x). unfold request_to. cbn [sp_ip sp_port sp_net sp_mac].
  destruct x as [o p idx|o p idx v prio]; cbn [request_of call_of start].
  - destruct Hx as (Ho & Hpr & Hix). assert (Hp' : in_u32 p) by (red in Hpr; red; lia). split.
    + apply SD. unfold spec_read_request. rewrite zlen_app. pose proof (reference_len o p idx Hp' Hix). change (zlen (spec_request id 12)) with 4. lia.
    + unfold ReadProperty_prog. rewrite Ed. fold dest. rewrite EH, U, enc_read by assumption. reflexivity.
  - destruct Hx as (Ho & Hpr & Hix & Hb & Hv & Hst & Hbin & Hl). assert (Hp' : in_u32 p) by (red in Hpr; red; lia).
    assert (EQ : lib_write id o p idx v prio = spec_write_request id o p idx v prio).
    { unfold lib_write, spec_write_request. rewrite (proj2 (lib_value_standard o p v Hv Hbin) Hst). reflexivity. }
    split.
    + apply SD. rewrite <- EQ. pose proof (write_len id o p idx v prio Hp' Hix Hb (value_len _ v Hv Hl)). lia.
    + unfold WriteProperty_prog. rewrite Ed. fold dest. rewrite EH, U, enc_write by assumption. cbn [eerr ebuf]. rewrite EQ. reflexivity.
Qed.

Definition attempts (x : SpecDevice.op) : nat := match x with ORead _ _ _ => 1%nat | OWrite _ _ _ _ _ => 2%nat end.
Lemma start_bounded : forall me dev t id x, spot_ok t -> lives dev t -> op_ok x -> is_byte id -> present me = false ->
  bounded (request_to t id x) (attempts x) (start me (call_of dev x) (Some id)).
Proof.
  intros me dev t id x Ht Hl Hx Hid Hme. destruct (start_form me dev t id x Ht Hl Hx Hid Hme) as (dest & data & Sg & ->).
  destruct x; apply bounded_pmap; [apply rp_bounded|apply wp_bounded]; exact Sg.
Qed.
Lemma start_honest : forall S (I : S -> Prop) (M : machine S) me dev t id x (at_ : S -> Prop), spot_ok t -> lives dev t -> op_ok x -> is_byte id -> present me = false ->
  machine_ok I M -> (forall s, at_ s -> I s) ->
  honest (fun pl => exists s, at_ s /\ reacts M x s pl)
         (fun r => seen_as r = Failed \/ exists s, at_ s /\ seen_as r = result_at M x s)
         (start me (call_of dev x) (Some id)).
Proof.
  intros S I M me dev t id x at_ Ht Hl Hx Hid Hme (MR & _) HI. destruct (start_form me dev t id x Ht Hl Hx Hid Hme) as (dest & data & Sg & ->).
  destruct x as [o p idx|o p idx v prio].
  - destruct Hx as (Ho & Hpr & Hix). assert (Hp' : in_u32 p) by (red in Hpr; red; lia).
    apply (honest_pmap _ _ AnRead _ (fun r => seen_as (omap AnRead r) = Failed \/ exists s, at_ s /\ seen_as (omap AnRead r) = result_at M (ORead o p idx) s)); [auto|].
    eapply rp_honest; [exact Sg|left; reflexivity|].
    intros pl (s & As & R). cbn [reacts result_at] in *. specialize (MR s o p idx (HI s As)).
    destruct (m_read M s o p idx) as [vs|[c k]] eqn:E; [left|right; exact R].
    destruct R as (i0 & ->). eexists. eexists. split; [reflexivity|]. split; [apply read_ack; eassumption|].
    right. exists s. split; [exact As|]. rewrite E. reflexivity.
  - apply (honest_pmap _ _ (fun _ : unit => AnDone) _ (fun r => seen_as (omap (fun _ => AnDone) r) = Failed \/ exists s, at_ s /\ seen_as (omap (fun _ => AnDone) r) = result_at M (OWrite o p idx v prio) s)); [auto|].
    eapply wp_honest; [exact Sg|left; reflexivity|].
    intros pl (s & As & R). cbn [reacts result_at] in *. unfold accepts.
    destruct (m_write M s o p idx (meant o p v) prio) as [s'|[c k]] eqn:E; [left|right; exact R].
    destruct R as (i0 & ->). eexists. split; [reflexivity|]. split; [reflexivity|].
    right. exists s. split; [exact As|]. rewrite E. reflexivity.
Qed.

(** ** Whose answers are on their way to whom *)

(** [Q j p]: payload [p] answers the call in progress of goroutine [j] *)
Definition tied (Q : nat -> payload -> Prop) (w : world) : Prop :=
  (forall i v a j x g, nth_error (w_ph w) i = Some (NHandle v) -> nth_error (w_in w) v = Some a ->
     nth_error (w_ph w) j = Some x -> owns x = Some (ar_id a, g) -> Q j (ar_load a)) /\
  (forall j x h tr v a, nth_error (w_ph w) j = Some x -> hist_of x = Some (h, tr) -> In (inr v) h ->
     nth_error (w_in w) v = Some a -> Q j (ar_load a)).

Lemma tied_weaken : forall (Q Q' : nat -> payload -> Prop) w, tied Q w ->
  (forall j x p, nth_error (w_ph w) j = Some x -> (owns x <> None \/ hist_of x <> None) -> Q j p -> Q' j p) -> tied Q' w.
Proof.
  intros Q Q' w [A B] H. split.
  - intros i v a j x g N Na Nj Ow. eapply H; [exact Nj|left; congruence|]. eapply A; eassumption.
  - intros j x h tr v a Nj Hh Hv Na. eapply H; [exact Nj|right; congruence|]. eapply B; eassumption.
Qed.

Lemma tied_step : forall me l Q w w' e, winvA me l w -> tied Q w -> w_in w' = w_in w ++ e ->
  (forall i v a j x' g, nth_error (w_ph w') i = Some (NHandle v) -> nth_error (w_in w') v = Some a ->
     nth_error (w_ph w') j = Some x' -> owns x' = Some (ar_id a, g) ->
     Q j (ar_load a) \/ (nth_error (w_ph w) i = Some (NHandle v) /\ exists x g', nth_error (w_ph w) j = Some x /\ owns x = Some (ar_id a, g'))) ->
  (forall j x' h tr v, nth_error (w_ph w') j = Some x' -> hist_of x' = Some (h, tr) -> In (inr v) h ->
     (forall a, nth_error (w_in w') v = Some a -> Q j (ar_load a)) \/
     exists x h0 tr0, nth_error (w_ph w) j = Some x /\ hist_of x = Some (h0, tr0) /\ In (inr v) h0) ->
  tied Q w'.
Proof.
  intros me l Q w w' e IA [A B] Ein H1 H2. split.
  - intros i v a j x g N Na Nj Ow. destruct (H1 i v a j x g N Na Nj Ow) as [R|(N0 & x0 & g' & Nx & Ox)]; [exact R|].
    destruct (pc_of _ _ _ _ _ IA N0) as (p0 & _ & F). cbn [fits] in F. destruct F as (a0 & Na0 & _).
    assert (a = a0) as -> by (rewrite Ein, (nth_error_grow _ _ e _ _ Na0) in Na; congruence).
    eapply A; eassumption.
  - intros j x h tr v a Nj Hh Hv Na. destruct (H2 j x h tr v Nj Hh Hv) as [R|(x0 & h0 & tr0 & N0 & Hh0 & Hv0)]; [exact (R a Na)|].
    assert (exists a0, nth_error (w_in w) v = Some a0) as (a0 & Na0).
    { pose proof (a_hist _ _ _ IA _ _ N0) as HO.
      assert (exists id, Forall (reply_ok (fresh_run l) (w_in w) id) h0) as (id & F).
      { destruct x0; cbn in Hh0; try discriminate; injection Hh0 as -> _; cbn [hist_ok] in HO; exists id; apply HO. }
      rewrite Forall_forall in F. destruct (F _ Hv0) as (a0 & E & _). exists a0. exact E. }
    assert (a = a0) as -> by (rewrite Ein, (nth_error_grow _ _ e _ _ Na0) in Na; congruence).
    eapply B; eassumption.
Qed.

(** goroutine [i] goes on to phase [x'] *)
Lemma tied_one : forall me l Q w w' i x x', winvA me l w -> tied Q w ->
  nth_error (w_ph w) i = Some x -> w_ph w' = upd (w_ph w) i x' -> w_in w' = w_in w ->
  (forall v, x' = NHandle v -> x = NHandle v) ->
  (owns x' = None \/ owns x' = owns x \/
   forall k v a id g, owns x' = Some (id, g) -> nth_error (w_ph w) k = Some (NHandle v) -> nth_error (w_in w) v = Some a -> ar_id a <> id) ->
  (forall h tr, hist_of x' = Some (h, tr) -> forall v, In (inr v) h ->
     (forall a, nth_error (w_in w) v = Some a -> Q i (ar_load a)) \/ exists h0 tr0, hist_of x = Some (h0, tr0) /\ In (inr v) h0) ->
  tied Q w'.
Proof.
  intros me l Q w w' i x x' IA T N P Ein HH HO HP.
  eapply (tied_step me l Q w w' [] IA T); [rewrite Ein; apply nil_r| |].
  - intros k v a j y g Nk Na Nj Ow. rewrite P in Nk, Nj. rewrite Ein in Na.
    assert (nth_error (w_ph w) k = Some (NHandle v)) as Nk0.
    { destruct (upd_inv _ _ _ _ _ _ Nk) as [[-> E]|[D Nk']]; [|exact Nk']. rewrite <- (HH v (eq_sym E)). exact N. }
    right. split; [exact Nk0|].
    destruct (upd_inv _ _ _ _ _ _ Nj) as [[-> ->]|[D Nj']]; [|exists y, g; auto].
    destruct HO as [C|[C|C]]; [congruence|exists x, g; split; [exact N|congruence]|exfalso; eapply C; eauto].
  - intros j y h tr v Nj Hh Hv. rewrite P in Nj. rewrite Ein.
    destruct (upd_inv _ _ _ _ _ _ Nj) as [[-> ->]|[D Nj']]; [|right; exists y, h, tr; auto].
    destruct (HP h tr Hh v Hv) as [C|(h0 & tr0 & Hh0 & Hv0)]; [left; exact C|right; exists x, h0, tr0; auto].
Qed.

Lemma tied_same : forall Q w w', tied Q w -> w_ph w' = w_ph w -> w_in w' = w_in w -> tied Q w'.
Proof. intros Q w w' [A B] P I. unfold tied. rewrite P, I. split; assumption. Qed.

(** The answer a handler passes on goes to the goroutine that holds its id. *)
Lemma delivered_own : forall me l R w i j v0 a0 sid v c sg rq rid rg h tr k,
  winvA me l w -> winvB w -> ordered R w ->
  nth_error (w_ph w) i = Some (NHandle v0) -> nth_error (w_in w) v0 = Some a0 ->
  nth_error (sy_thr (w_tsm w)) i = Some (SendWait sid v (Some c) sg) -> sid = ar_id a0 ->
  nth_error (w_ph w) j = Some (NRecv rq rid rg h tr k) ->
  nth_error (sy_thr (w_tsm w)) j = Some (RecvWait rid (Some c) rg) ->
  rid = ar_id a0.
Proof.
  intros me l R w i j v0 a0 sid v c sg rq rid rg h tr k IA IB O Ni Na Ti Es Nj Tj.
  destruct (winvA_inv _ _ _ IA) as (I1 & I2 & I3).
  destruct (o_handle _ _ O i v0 a0 Ni Na) as (j0 & x & g & d & Nx & Ow & Hd & HR & Hs).
  assert (sg = g) as -> by (eapply Hs; [exact Ti|reflexivity]).
  assert (Ru : running x = true) by (destruct x; cbn in *; try contradiction; reflexivity).
  subst sid.
  destruct (k_found _ I3 _ _ _ _ _ Ti eq_refl) as [_ [(o1 & T1 & D1)|(k1 & Q1)]];
    [|exfalso; eapply (b_open _ IB); [exact Nx|exact Ow|exact Ru|exact Q1]].
  destruct (k_found _ I3 _ _ _ _ _ Tj eq_refl) as [_ [(o2 & T2 & D2)|(k1 & Q1)]];
    [|exfalso; eapply (b_open _ IB); [exact Nj|reflexivity|reflexivity|exact Q1]].
  assert (o1 = o2) as <- by (eapply (j_inj _ I2); eassumption).
  pose proof (tab_inj _ _ _ (j_tab _ I2) T1 T2 eq_refl) as E.
  injection E as Ea Eb. symmetry. exact Ea.
Qed.

Lemma tied_next : forall me l R Q w a w', wrun me w_init l = Some w -> ordered R w -> tied Q w ->
  (forall i src b, a = WArrive i src b -> forall id p, In (ModelClient.EDeliver id p) (fst (handleMsg (fun _ => true) src b)) ->
     forall j x g, nth_error (w_ph w) j = Some x -> owns x = Some (id, g) -> Q j p) ->
  wexec me w a = Some w' -> tied Q w'.
Proof.
  intros me l R Q w a w' Run O T AR H. destruct (wreach _ _ _ Run) as [IA IB].
  pose proof (wstep _ _ _ _ _ IA IB H) as [_ IB'].
  pose proof H as Hex.
  unfold wexec in H. destruct (w_dead w) eqn:Dd; [discriminate|].
  destruct a as [|i rq|i src b|i ok|i|a].
  - destruct (exec (w_tsm w) ASpawn) as [s|] eqn:E; [|discriminate]. injection H as <-.
    assert (forall j (x' : phase), nth_error (w_ph w ++ [NFree]) j = Some x' -> x' = NFree \/ nth_error (w_ph w) j = Some x') as P.
    { intros j x' N. destruct (Nat.lt_ge_cases j (length (w_ph w))) as [Lt|Ge].
      - rewrite nth_error_app1 in N by exact Lt. auto.
      - rewrite nth_error_app2 in N by exact Ge. left.
        destruct (j - length (w_ph w))%nat as [|[|m]]; cbn in N; congruence. }
    destruct T as [A B]. split; cbn [w_ph w_in].
    + intros j v b k x g Nj Nb Nk Ow. destruct (P _ _ Nj) as [C|Nj']; [discriminate|]. destruct (P _ _ Nk) as [->|Nk']; [discriminate|].
      eapply A; eassumption.
    + intros j x h tr v b Nj Hh Hv Nb. destruct (P _ _ Nj) as [->|Nj']; [discriminate|]. eapply B; eassumption.
  - destruct (nth_error (w_ph w) i) as [[]|] eqn:N; try discriminate.
    destruct (exec (w_tsm w) _) as [s|] eqn:E; [|discriminate]. injection H as <-.
    eapply (tied_one me l Q w _ i NFree (NId rq) IA T N); try reflexivity; try discriminate. left. reflexivity.
  - destruct (nth_error (w_ph w) i) as [[]|] eqn:N; try discriminate.
    destruct (handleMsg (fun _ => true) src b) as [eff pan] eqn:Hm.
    destruct (delivery eff) as [[id p]|] eqn:De.
    + destruct (exec (w_tsm w) _) as [s|] eqn:E; [|discriminate]. injection H as <-.
      eapply (tied_step me l Q w _ [mkArr src b id p] IA T); cbn [w_ph w_in]; [reflexivity| |].
      * intros k v a j x' g Nk Na Nj Ow.
        destruct (upd_inv _ _ _ _ _ _ Nj) as [[-> ->]|[Dj Nj']]; [discriminate|].
        destruct (upd_inv _ _ _ _ _ _ Nk) as [[-> Ek]|[Dk Nk']]; [|right; split; [exact Nk'|]; exists x', g; auto].
        left. injection Ek as ->. rewrite nth_error_app2, Nat.sub_diag in Na by apply Nat.le_refl. injection Na as <-.
        cbn [ar_id ar_load] in *. eapply (AR i src b eq_refl); [rewrite Hm; cbn [fst]; eapply delivery_in; exact De|exact Nj'|exact Ow].
      * intros j x' h tr v Nj Hh Hv. destruct (upd_inv _ _ _ _ _ _ Nj) as [[-> ->]|[Dj Nj']]; [discriminate|].
        right. exists x', h, tr. auto.
    + destruct (sy_crash (w_tsm w)); [discriminate|]. injection H as <-. eapply tied_same; [exact T| |]; destruct pan; reflexivity.
  - destruct (nth_error (w_ph w) i) as [[| |rq id g h tr [r|d k]| | | |]|] eqn:N; try discriminate.
    destruct ok.
    + destruct (exec (w_tsm w) _) as [s|] eqn:E; [|discriminate]. injection H as <-.
      eapply (tied_one me l Q w _ i _ (NRecv rq id g h (tr ++ [d]) k) IA T N); try reflexivity; try discriminate.
      * right. left. reflexivity.
      * intros h0 tr0 E0 v Hv. injection E0 as <- <-. right. exists h, tr. auto.
    + destruct (sy_crash (w_tsm w)); [discriminate|]. injection H as <-.
      eapply (tied_one me l Q w _ i _ _ IA T N); try reflexivity; try discriminate.
      * right. left. reflexivity.
      * intros h0 tr0 E0 v Hv. injection E0 as <- <-. right. exists h, tr. split; [reflexivity|].
        apply in_app_or in Hv. destruct Hv as [Hv|[Hv|[]]]; [exact Hv|discriminate].
  - destruct (nth_error (w_ph w) i) as [[| |rq id g h tr [r|d k]| | | |]|] eqn:N; try discriminate.
    assert (forall s, tied Q (with_ph (with_tsm w s) i (NPut rq id g h tr r))) as G.
    { intros s. eapply (tied_one me l Q w _ i _ _ IA T N); try reflexivity; try discriminate.
      * right. left. reflexivity.
      * intros h0 tr0 E0 v Hv. injection E0 as <- <-. right. exists h, tr. auto. }
    destruct r; try discriminate;
      try (destruct (exec (w_tsm w) _) as [s|] eqn:E; [|discriminate]; injection H as <-; apply G).
    destruct (sy_crash (w_tsm w)); [discriminate|]. injection H as <-. eapply tied_same; [exact T| |]; reflexivity.
  - destruct (inside a) eqn:Ia; [|discriminate].
    destruct (exec (w_tsm w) a) as [s|] eqn:E; [|discriminate].
    assert (NO : forall e, In e (sy_log s) -> odd e = false).
    { intros e He. eapply (none_odd me (l ++ [WTsm a]) w').
      - clear - Run Hex. revert Run. generalize w_init. induction l as [|b l IH]; intros w0 R0; cbn [wrun app] in *.
        + injection R0 as ->. rewrite Hex. reflexivity.
        + destruct (wexec me w0 b); [|discriminate]. apply IH. exact R0.
      - destruct (Nat.eqb _ _); [injection H as <-; exact He|]. destruct (sy_log s) eqn:Ls; injection H as <-; [contradiction He|]. rewrite returned_tsm. cbn [with_tsm w_tsm]. rewrite Ls. exact He. }
    destruct (inside_tstep _ _ _ Ia E)
      as [Th Tab Gen Log|i p p' Np M Th Tab Gen Log|i p p' e Np En Th Tab Gen Log
         |i id o Np Lk Th Tab Gen Log|i id o g Np Th Tab Gen Log
         |i j sid v c sg rid rg D Np Nq Th Tab Gen Log|i Th Tab Gen Cr Log].
    + rewrite Log, Nat.eqb_refl in H. injection H as <-. eapply tied_same; [exact T| |]; reflexivity.
    + rewrite Log, Nat.eqb_refl in H. injection H as <-. eapply tied_same; [exact T| |]; reflexivity.
    + rewrite Log, log_grows in H. injection H as <-.
      destruct (ph_of _ _ _ _ _ IA Np) as (x & N & F).
      destruct En; cbn [returned]; cbn [with_tsm w_ph] in *;
        try (specialize (NO _ ltac:(rewrite Log; left; reflexivity)); discriminate NO);
        try (eapply tied_same; [exact T| |]; reflexivity).
      * rewrite N. destruct x; cbn [fits] in F; try discriminate F; try contradiction F;
          try (destruct F as (q & Fa & []); fail). rewrite start_none.
        eapply (tied_one me l Q w _ i _ NFree IA T N); try reflexivity; try discriminate. left. reflexivity.
      * rewrite N. destruct x; cbn [fits] in F; try discriminate F; try contradiction F;
          try (destruct F as (q & Fa & []); fail). rewrite start_none.
        eapply (tied_one me l Q w _ i _ NFree IA T N); try reflexivity; try discriminate. left. reflexivity.
      * destruct x; cbn [fits] in F; try discriminate F; try contradiction F. destruct F as (q & Fa & -> & ->).
        rewrite N. unfold ModelSystem.handled. cbn [with_ph with_tsm w_in]. rewrite Fa.
        assert (tied Q (with_ph (with_tsm w s) i NFree)) as G.
        { eapply (tied_one me l Q w _ i _ NFree IA T N); try reflexivity; try discriminate. left. reflexivity. }
        destruct (snd _); [eapply tied_same; [exact G| |]; reflexivity|exact G].
      * destruct x; cbn [fits] in F; try discriminate F; try contradiction F;
          try (destruct F as (q & Fa & []); fail). destruct F as [-> ->].
        unfold ModelSystem.received. cbn [with_tsm w_ph]. rewrite N.
        eapply (tied_one me l Q w _ i _ _ IA T N); try reflexivity; try discriminate.
        -- right. left. reflexivity.
        -- intros h0 tr0 E0 v Hv. injection E0 as <- <-. right. exists h, tr. split; [reflexivity|].
           apply in_app_or in Hv. destruct Hv as [Hv|[Hv|[]]]; [exact Hv|discriminate].
    + rewrite Log, log_grows in H. injection H as <-.
      destruct (ph_of _ _ _ _ _ IA Np) as (x & N & F).
      destruct x; cbn [fits] in F; try discriminate F; try contradiction F; try (destruct F as (q & Fa & []); fail).
      cbn [returned with_tsm w_ph] in *. rewrite N in *.
      eapply (tied_one me l Q w _ i _ _ IA T N); try reflexivity; try discriminate.
      * right. right. intros k v a0 id0 g0 Ow Nk Na Ei. cbn in Ow. injection Ow as <- <-.
        destruct (o_handle _ _ O k v a0 Nk Na) as (j0 & x & g & d & Nx & Ox & _). rewrite Ei in Ox.
        assert (j0 <> i) as Dj by (intros ->; rewrite N in Nx; injection Nx as <-; discriminate).
        apply Dj. eapply (b_uniq _ IB' j0 i).
        -- cbn [with_ph w_ph with_tsm]. rewrite upd_other by auto. exact Nx.
        -- cbn [with_ph w_ph with_tsm]. eapply upd_same. exact N.
        -- exact Ox.
        -- reflexivity.
      * intros h0 tr0 E0. injection E0 as <- <-. intros v [].
    + rewrite Log, log_grows in H. injection H as <-.
      destruct (ph_of _ _ _ _ _ IA Np) as (x & N & F).
      destruct x; cbn [fits] in F; try discriminate F; try contradiction F; try (destruct F as (q & Fa & []); fail).
      cbn [returned with_tsm w_ph]. rewrite N.
      eapply (tied_one me l Q w _ i _ NFree IA T N); try reflexivity; try discriminate. left. reflexivity.
    + rewrite Log, log_grows in H. injection H as <-.
      destruct (ph_of _ _ _ _ _ IA Np) as (x & N & F).
      destruct x; cbn [fits] in F; try discriminate F; try contradiction F.
      destruct F as (q & Fa & -> & ->).
      destruct (ph_of _ _ _ _ _ IA Nq) as (x & N2 & F2).
      destruct x; cbn [fits] in F2; try discriminate F2; try contradiction F2;
        try (destruct F2 as (q2 & Fa2 & []); fail).
      destruct F2 as [<- <-].
      pose proof (delivered_own _ _ _ _ _ _ _ _ _ _ _ _ _ _ _ _ _ _ IA IB O N Fa Np eq_refl N2 Nq) as Eid.
      cbn [returned]. unfold ModelSystem.received. cbn [with_tsm w_ph]. rewrite N2, Nat2Z.id.
      cbn [with_ph with_tsm w_ph]. rewrite upd_other by auto. rewrite N. unfold ModelSystem.handled.
      cbn [with_ph w_in with_tsm]. rewrite Fa.
      match goal with |- context [if ?b then kill ?w1 else _] =>
        assert (tied Q w1) as G; [|destruct b; [eapply tied_same; [exact G| |]; reflexivity|exact G]] end.
      eapply (tied_step me l Q w _ [] IA T); cbn [w_in w_ph w_tsm w_done with_ph with_tsm].
      * apply nil_r.
      * intros k0 v3 a0 j0 x' g0 Nk Na Nj Ow.
        destruct (upd_inv _ _ _ _ _ _ Nk) as [[-> C]|[D1 Nk1]]; [discriminate|].
        destruct (upd_inv _ _ _ _ _ _ Nk1) as [[-> C]|[D2 Nk2]]; [discriminate|].
        right. split; [exact Nk2|].
        destruct (upd_inv _ _ _ _ _ _ Nj) as [[-> ->]|[D3 Nj1]]; [discriminate|].
        destruct (upd_inv _ _ _ _ _ _ Nj1) as [[-> ->]|[D4 Nj2]].
        -- eexists. eexists. split; [exact N2|exact Ow].
        -- exists x', g0. auto.
      * intros j0 x' h0 tr0 v3 Nj Hh Hv.
        destruct (upd_inv _ _ _ _ _ _ Nj) as [[-> ->]|[D3 Nj1]]; [discriminate|].
        destruct (upd_inv _ _ _ _ _ _ Nj1) as [[-> ->]|[D4 Nj2]].
        -- injection Hh as <- <-. apply in_app_or in Hv. destruct Hv as [Hv|[Hv|[]]].
           ++ right. eexists. exists h, tr. split; [exact N2|]. split; [reflexivity|exact Hv].
           ++ injection Hv as <-. left. intros a0 Na0. assert (a0 = q) as -> by congruence.
              eapply (proj1 T); [exact N|exact Fa|exact N2|]. cbn. rewrite Eid. reflexivity.
        -- right. exists x', h0, tr0. auto.
    + rewrite Log, log_grows in H. injection H as <-. cbn [returned]. eapply tied_same; [exact T| |]; reflexivity.
Qed.

(** ** Steps of the client *)

Lemma keeps_exec : forall me w a w', wexec me w a = Some w' -> (forall i rq, a <> WCall i rq) -> keeps w w'.
Proof.
  intros me w a w' H NC. unfold wexec in H. destruct (w_dead w); [discriminate|].
  destruct a as [|i rq|i src b|i ok|i|a].
  - destruct (exec _ _) as [s|]; [|discriminate]. injection H as <-. split; cbn; [|auto].
    intros j y rq N R. destruct (Nat.lt_ge_cases j (length (w_ph w))) as [Lt|Ge].
    + rewrite nth_error_app1 in N by exact Lt. eauto.
    + rewrite nth_error_app2 in N by exact Ge.
      destruct (j - length (w_ph w))%nat as [|[|m]]; cbn in N; try discriminate.
      injection N as <-. discriminate.
  - exfalso. eapply NC. reflexivity.
  - destruct (nth_error (w_ph w) i) as [[]|] eqn:N; try discriminate.
    destruct (handleMsg _ _ _) as [eff pan]. destruct (delivery eff) as [[id p]|].
    + destruct (exec _ _) as [s|]; [|discriminate]. injection H as <-.
      split; cbn; [|auto]. intros j y rq1 Ny Ry.
      destruct (upd_inv _ _ _ _ _ _ Ny) as [[-> ->]|[D Nj]]; [discriminate|eauto].
    + destruct (sy_crash _); [discriminate|]. injection H as <-.
      destruct pan; apply keeps_same; reflexivity.
  - destruct (nth_error (w_ph w) i) as [[| |rq id g h tr [r|d k]| | | |]|] eqn:N; try discriminate.
    destruct ok.
    + destruct (exec _ _) as [s|]; [|discriminate]. injection H as <-.
      eapply keeps_trans; [|eapply keeps_ph; [exact N|left; reflexivity]].
      apply keeps_same; reflexivity.
    + destruct (sy_crash _); [discriminate|]. injection H as <-.
      eapply keeps_ph; [exact N|left; reflexivity].
  - destruct (nth_error (w_ph w) i) as [[| |rq id g h tr [r|d k]| | | |]|] eqn:N; try discriminate.
    destruct r; try discriminate;
      try (destruct (exec _ _) as [s|]; [|discriminate]; injection H as <-;
           eapply keeps_trans; [|eapply keeps_ph; [exact N|left; reflexivity]];
           apply keeps_same; reflexivity).
    destruct (sy_crash _); [discriminate|]. injection H as <-. apply keeps_same; reflexivity.
  - destruct (inside a); [|discriminate]. destruct (exec _ _) as [s|]; [|discriminate].
    destruct (Nat.eqb _ _).
    + injection H as <-. apply keeps_same; reflexivity.
    + destruct (sy_log s) as [|e t]; injection H as <-; [apply keeps_same; reflexivity|].
      eapply keeps_trans; [|apply keeps_returned]. apply keeps_same; reflexivity.
Qed.

(** either no call returns or one does *)
Definition one_done (w w' : world) : Prop :=
  w_done w' = w_done w \/ exists f x, w_done w' = f :: w_done w /\ nth_error (w_ph w) (fi_thread f) = Some x
    /\ req_of x = Some (fi_req f) /\ nth_error (w_ph w') (fi_thread f) = Some NFree
    /\ (fi_id f = None \/ fi_id f = outstanding x /\ hist_of x = Some (fi_hist f, fi_sent f)) /\ w_in w' = w_in w.

Lemma handled_done : forall w i v b, w_done (ModelSystem.handled w i v b) = w_done w.
Proof. intros w i v b. unfold ModelSystem.handled. destruct (nth_error _ v); [|reflexivity]. destruct (snd _); reflexivity. Qed.
Lemma received_done : forall w i x, w_done (ModelSystem.received w i x) = w_done w.
Proof. intros w i x. unfold ModelSystem.received. destruct (nth_error _ i) as [[]|]; reflexivity. Qed.

Lemma returned_done : forall me w e, one_done w (ModelSystem.returned me w e).
Proof.
  intros me w e. destruct e; cbn [ModelSystem.returned]; try (left; reflexivity).
  - destruct (nth_error (w_ph w) i) as [[]|]; left; reflexivity.
  - destruct (nth_error (w_ph w) i) as [[]|] eqn:N; try (left; reflexivity).
    destruct (start me rq None); [|left; reflexivity]. right. eexists. eexists. cbn [with_done with_ph w_done w_ph w_in fi_thread fi_req fi_id].
    split; [reflexivity|]. split; [exact N|]. split; [reflexivity|]. split; [eapply upd_same; exact N|]. split; [left|]; reflexivity.
  - destruct (nth_error (w_ph w) i) as [[]|] eqn:N; try (left; reflexivity).
    right. eexists. eexists. cbn [with_done with_ph w_done w_ph w_in fi_thread fi_req fi_id fi_hist fi_sent].
    split; [reflexivity|]. split; [exact N|]. split; [reflexivity|]. split; [eapply upd_same; exact N|]. split; [right; split|]; reflexivity.
  - destruct (nth_error (w_ph w) i) as [[]|] eqn:N; try (left; reflexivity).
    right. eexists. eexists. cbn [with_done with_ph w_done w_ph w_in fi_thread fi_req fi_id fi_hist fi_sent].
    split; [reflexivity|]. split; [exact N|]. split; [reflexivity|]. split; [eapply upd_same; exact N|]. split; [right; split|]; reflexivity.
  - destruct (nth_error (w_ph w) i) as [[]|]; left; try reflexivity. apply handled_done.
  - left. destruct (nth_error (w_ph _) i) as [[]|]; rewrite ?handled_done; apply received_done.
  - left. apply received_done.
Qed.

Lemma done_step : forall me w a w', wexec me w a = Some w' -> one_done w w'.
Proof.
  intros me w a w' H. unfold wexec in H. destruct (w_dead w); [discriminate|].
  destruct a as [|i rq|i src b|i ok|i|a].
  - destruct (exec _ _) as [s|]; [|discriminate]. injection H as <-. left. reflexivity.
  - destruct (nth_error (w_ph w) i) as [[]|]; try discriminate.
    destruct (exec _ _) as [s|]; [|discriminate]. injection H as <-. left. reflexivity.
  - destruct (nth_error (w_ph w) i) as [[]|]; try discriminate.
    destruct (handleMsg _ _ _) as [eff pan]. destruct (delivery eff) as [[id p]|].
    + destruct (exec _ _) as [s|]; [|discriminate]. injection H as <-. left. reflexivity.
    + destruct (sy_crash _); [discriminate|]. injection H as <-. left. destruct pan; reflexivity.
  - destruct (nth_error (w_ph w) i) as [[| |rq id g h tr [r|d k]| | | |]|]; try discriminate. destruct ok.
    + destruct (exec _ _) as [s|]; [|discriminate]. injection H as <-. left. reflexivity.
    + destruct (sy_crash _); [discriminate|]. injection H as <-. left. reflexivity.
  - destruct (nth_error (w_ph w) i) as [[| |rq id g h tr [r|d k]| | | |]|]; try discriminate.
    destruct r; try discriminate;
      try (destruct (exec _ _) as [s|]; [|discriminate]; injection H as <-; left; reflexivity).
    destruct (sy_crash _); [discriminate|]. injection H as <-. left. reflexivity.
  - destruct (inside a); [|discriminate]. destruct (exec _ _) as [s|]; [|discriminate].
    destruct (Nat.eqb _ _).
    + injection H as <-. left. reflexivity.
    + destruct (sy_log s) as [|e t]; injection H as <-; [left; reflexivity|].
      exact (returned_done me (with_tsm w s) e).
Qed.

Lemma orderly_add : forall me R a l w w', wrun me w l = Some w' -> orderly me R w l -> in_order R w' a -> orderly me R w (l ++ [a]).
Proof.
  intros me R a. induction l as [|b l IH]; intros w w' H Or IO; cbn [app orderly wrun] in *.
  - injection H as ->. split; [exact IO|]. destruct (wexec me w' a); exact I.
  - destruct Or as [O1 O2]. split; [exact O1|]. destruct (wexec me w b) as [w1|]; [|exact I]. eapply IH; eassumption.
Qed.
Lemma wrun_add : forall me a l w w1 w', wrun me w l = Some w1 -> wexec me w1 a = Some w' -> wrun me w (l ++ [a]) = Some w'.
Proof.
  intros me a. induction l as [|b l IH]; intros w w1 w' H E; cbn [app wrun] in *.
  - injection H as ->. rewrite E. reflexivity.
  - destruct (wexec me w b); [|discriminate]. eapply IH; eassumption.
Qed.

(** ** Histories *)

Section Joint.
Context {S : Type} (I : S -> Prop) (me : option address) (Ms : spot -> machine S) (s0 : S).
Hypothesis HM : forall t, machine_ok I (Ms t).
Hypothesis H0 : I s0.
Hypothesis Hme : present me = false.

Definition okh (h : happening S) : Prop := match h with HServe _ _ x => op_ok x | HChange s => I s | _ => True end.

Lemma now_in : forall past, Forall okh past -> I (now Ms s0 past).
Proof.
  induction past as [|h past IH]; intros F; [exact H0|]. inversion F as [|? ? O F']; subst. specialize (IH F').
  destruct h as [i t x|i t x|s|i r]; cbn [now]; try exact IH; [|exact O].
  destruct x as [o p idx|o p idx v prio]; cbn [effect_on]; [exact IH|]. cbn [okh op_ok] in O.
  eapply accept_stays; [apply HM|exact IH|apply O|apply O].
Qed.

Lemma call_uniq : forall p q i t x t' x' p' q' , p ++ HCall i t x :: q = p' ++ HCall i t' x' :: q' ->
  existsb (@begins S i) p = false -> existsb (begins i) p' = false -> p = p' /\ t = t' /\ x = x' /\ q = q'.
Proof.
  induction p as [|h p IH]; intros q i t x t' x' p' q' E Np Np'; destruct p' as [|h' p']; cbn [app existsb] in *.
  - injection E as <- <- <-. auto.
  - injection E as <- E. cbn [begins] in Np'. rewrite Nat.eqb_refl in Np'. discriminate.
  - injection E as -> E. cbn [begins] in Np. rewrite Nat.eqb_refl in Np. discriminate.
  - injection E as -> E. apply orb_false_iff in Np. apply orb_false_iff in Np'.
    destruct (IH q i t x t' x' p' q' E (proj2 Np) (proj2 Np')) as (-> & -> & -> & ->). auto.
Qed.
Lemma serve_within : forall q1 q2 i t x t' x' p p3, q1 ++ HServe i t x :: q2 = p ++ HCall i t' x' :: p3 ->
  existsb (@begins S i) q1 = false -> exists r, p = q1 ++ HServe i t x :: r /\ q2 = r ++ HCall i t' x' :: p3.
Proof.
  induction q1 as [|h q1 IH]; intros q2 i t x t' x' p p3 E N; destruct p as [|h' p]; cbn [app existsb] in *.
  - discriminate.
  - injection E as <- ->. exists p. auto.
  - injection E as -> E. cbn [begins] in N. rewrite Nat.eqb_refl in N. discriminate.
  - injection E as -> E. apply orb_false_iff in N. destruct (IH q2 i t x t' x' p p3 E (proj2 N)) as (r & -> & ->). exists r. auto.
Qed.

Definition answers (past : list (happening S)) (j : nat) (pl : payload) : Prop :=
  exists q1 t x q2, past = q1 ++ HServe j t x :: q2 /\ existsb (begins j) q1 = false /\ reacts (Ms t) x (now Ms s0 q2) pl.
Lemma answers_cons : forall h past j pl, begins j h = false -> answers past j pl -> answers (h :: past) j pl.
Proof.
  intros h past j pl B (q1 & t & x & q2 & -> & N & R). exists (h :: q1), t, x, q2. split; [reflexivity|].
  split; [cbn [existsb]; rewrite B; exact N|exact R].
Qed.

(** the call in progress of goroutine [i] *)
Definition in_call (past : list (happening S)) (i : nat) (rq : ModelSystem.request) : Prop :=
  exists q1 dev t x q2, past = q1 ++ HCall i t x :: q2 /\ existsb (begins i) q1 = false /\ existsb (finishes i) q1 = false
  /\ rq = call_of dev x /\ lives dev t /\ spot_ok t /\ op_ok x.
Lemma in_call_cons : forall h past i rq, begins i h = false -> finishes i h = false -> in_call past i rq -> in_call (h :: past) i rq.
Proof.
  intros h past i rq B F (q1 & dev & t & x & q2 & -> & N & M & Q). exists (h :: q1), dev, t, x, q2. split; [reflexivity|].
  cbn [existsb]. rewrite B, F. auto.
Qed.

Record jinv (w : world) (past : list (happening S)) : Prop := {
  v_run : exists l, wrun me w_init l = Some w /\ orderly me (fun _ _ => True) w_init l;
  v_tied : tied (answers past) w;
  v_call : forall i y rq, nth_error (w_ph w) i = Some y -> req_of y = Some rq -> in_call past i rq;
  v_ok : Forall okh past;
  v_exp : explained Ms s0 past;
  v_two : forall i q1 t x q2, past = q1 ++ HCall i t x :: q2 -> existsb (begins i) q1 = false -> (SpecLinear.served i past <= attempts x)%nat;
  v_twice : forall p1 i t x p2 t' x' p3, past = p1 ++ HServe i t x :: p2 ++ HServe i t' x' :: p3 -> existsb (begins i) p2 = false -> attempts x = 2%nat
}.

Lemma explained_quiet : forall h past, explained Ms s0 past -> (forall i r, h <> HEnd i r) -> (forall i t x, h <> HServe i t x) -> explained Ms s0 (h :: past).
Proof.
  intros h past [A B] NE NS. split.
  - intros [|h' p1] i r p2 t x p3 E; [injection E as E _; exfalso; eapply NE; exact E|]. injection E as _ E. eapply A. exact E.
  - intros [|h' p1] i t x p2 E; [injection E as E _; exfalso; eapply NS; exact E|]. injection E as _ E. eapply B. exact E.
Qed.
Lemma explained_serve : forall i t x past, explained Ms s0 past ->
  (exists q1 q2, past = q1 ++ HCall i t x :: q2 /\ existsb (begins i) q1 = false /\ existsb (finishes i) q1 = false) ->
  explained Ms s0 (HServe i t x :: past).
Proof.
  intros i t x past [A B] C. split.
  - intros [|h' p1] i' r p2 t' x' p3 E; [discriminate|]. injection E as _ E. eapply A. exact E.
  - intros [|h' p1] i' t' x' p2 E; [injection E as <- <- <- <-; exact C|]. injection E as _ E. eapply B. exact E.
Qed.
Lemma explained_end : forall i r past, explained Ms s0 past ->
  (r = Failed \/ forall p2 t x p3, past = p2 ++ HCall i t x :: p3 -> existsb (begins i) p2 = false ->
     r = Failed \/ exists q1 q2, p2 = q1 ++ HServe i t x :: q2 /\ r = result_at (Ms t) x (now Ms s0 (q2 ++ HCall i t x :: p3))) ->
  explained Ms s0 (HEnd i r :: past).
Proof.
  intros i r past [A B] C. split.
  - intros [|h' p1] i' r' p2 t x p3 E N; [injection E as <- <- E|injection E as _ E; eapply A; eassumption].
    destruct C as [C|C]; [left; exact C|]. exact (C p2 t x p3 E N).
  - intros [|h' p1] i' t' x' p2 E; [discriminate|]. injection E as _ E. eapply B. exact E.
Qed.

Lemma id_byte : forall l w i y id, wrun me w_init l = Some w -> nth_error (w_ph w) i = Some y -> outstanding y = Some id -> is_byte id.
Proof.
  intros l w i y id Run N O. destruct (wreach _ _ _ Run) as [IA IB]. destruct (winvA_inv _ _ _ IA) as (I1 & _).
  apply outstanding_owns in O. destruct O as [g Ow]. destruct (b_own _ IB _ _ _ _ N Ow) as (o & T).
  apply (in_map fst) in T. cbn [fst] in T. apply (i_range _ I1), all_ids_range in T. unfold is_byte. lia.
Qed.
(** what a call has sent *)
Lemma sent_are : forall l w i y id dev t x, wrun me w_init l = Some w -> nth_error (w_ph w) i = Some y -> outstanding y = Some id ->
  req_of y = Some (call_of dev x) -> lives dev t -> spot_ok t -> op_ok x ->
  (length (sent_by y) <= attempts x)%nat /\ forall d, In d (sent_by y) -> d = request_to t id x.
Proof.
  intros l w i y id dev t x Run N O Rq Hl Ht Hx. pose proof (id_byte _ _ _ _ _ Run N O) as Hid.
  destruct (wreach _ _ _ Run) as [IA _]. pose proof (a_hist _ _ _ IA _ _ N) as HO.
  pose proof (start_bounded me dev t id x Ht Hl Hx Hid Hme) as Bn.
  destruct y; cbn in O, Rq; try discriminate; injection O as ->; injection Rq as ->; cbn [hist_ok] in HO; cbn [sent_by].
  - destruct HO as [F _]. destruct (feed_bounded _ _ _ _ _ _ Bn F) as (m & Em & D & _). split; [lia|exact D].
  - destruct HO as [(tr0 & d & -> & F) _]. destruct (feed_bounded _ _ _ _ _ _ Bn F) as (m & Em & D & Bm).
    inversion Bm as [|m' k' Bk]; subst. rewrite app_length. cbn [length]. split; [lia|].
    intros d Hd. apply in_app_or in Hd. destruct Hd as [Hd|[<-|[]]]; auto.
  - split; [cbn; lia|intros d []].
Qed.

Lemma spot_norm : forall dev t, lives dev t -> sp_net t = 0 -> sp_mac t = 0.
Proof. intros dev t (mac & _ & _ & E) N. rewrite E, N. reflexivity. Qed.

Lemma served_end : forall i (h : happening S) past, SpecLinear.outside h = true -> (SpecLinear.served i (h :: past) <= SpecLinear.served i past)%nat.
Proof. intros i [j t x|j t x|s|j r] past O; cbn [SpecLinear.served SpecLinear.outside] in *; try discriminate; try lia. destruct (Nat.eqb j i); lia. Qed.

Lemma two_quiet : forall h past,
  (forall i q1 t x q2, past = q1 ++ HCall i t x :: q2 -> existsb (begins i) q1 = false -> (SpecLinear.served i past <= attempts x)%nat) ->
  SpecLinear.outside h = true ->
  forall i q1 t x q2, h :: past = q1 ++ HCall i t x :: q2 -> existsb (@begins S i) q1 = false -> (SpecLinear.served i (h :: past) <= attempts x)%nat.
Proof.
  intros h past V O i [|h' q1] t x q2 E B.
  - injection E as -> _. cbn [SpecLinear.served]. rewrite Nat.eqb_refl. lia.
  - injection E as <- E. cbn [existsb] in B. apply orb_false_iff in B.
    eapply Nat.le_trans; [apply served_end; exact O|]. exact (V i q1 t x q2 E (proj2 B)).
Qed.
Lemma twice_quiet : forall (h : happening S) past,
  (forall p1 i t x p2 t' x' p3, past = p1 ++ HServe i t x :: p2 ++ HServe i t' x' :: p3 -> existsb (begins i) p2 = false -> attempts x = 2%nat) ->
  SpecLinear.outside h = true ->
  forall p1 i t x p2 t' x' p3, h :: past = p1 ++ HServe i t x :: p2 ++ HServe i t' x' :: p3 -> existsb (begins i) p2 = false -> attempts x = 2%nat.
Proof.
  intros h past V O [|h' p1] i t x p2 t' x' p3 E B; [injection E as -> _; discriminate|]. injection E as _ E. eapply V; eassumption.
Qed.

Lemma jinv_client : forall w past a w', jinv w past -> timely Ms s0 w past a -> wexec me w a = Some w' -> jinv w' (noticed w w' ++ past).
Proof.
  intros w past a w' [(l & Run & Or) VT VC VO VE V2 V3] TI H.
  assert (NC : forall i rq, a <> WCall i rq) by (intros i rq ->; exact TI).
  destruct (wreach _ _ _ Run) as [IA IB].
  pose proof (wreachO _ _ _ _ Run Or) as O.
  assert (AR : forall i src b, a = WArrive i src b -> forall id p, In (ModelClient.EDeliver id p) (fst (handleMsg (fun _ => true) src b)) ->
    exists j y, nth_error (w_ph w) j = Some y /\ outstanding y = Some id /\ sent_by y <> [] /\ answers past j p).
  { intros i src b -> id p Hd. destruct (TI id p Hd) as (j & y & id' & fn & n & q1 & t & x & q2 & Nj & Ou & Sn & Ep & Nb & Hf & Hn & Hm & Eb).
    rewrite Ep in VO. apply Forall_app in VO. destruct VO as [_ VO]. inversion VO as [|? ? Ox VO']; subst.
    destruct (reacts_arrived S I (Ms t) id' x (now Ms s0 q2) _ _ _ _ _ _ (HM t) (now_in q2 VO') Ox Hf Hn Hm Hd) as [-> R].
    exists j, y. split; [exact Nj|]. split; [exact Ou|]. split; [exact Sn|]. exists q1, t, x, q2. auto. }
  assert (IO : in_order (fun _ _ => True) w a).
  { destruct a; cbn [in_order]; try exact Logic.I; [|exact TI].
    intros id p Hd. destruct (AR _ _ _ eq_refl id p Hd) as (j & y & Nj & Ou & Sn & _).
    destruct (sent_by y) as [|d tr] eqn:Es; [contradiction Sn; reflexivity|]. exists j, y, d. rewrite Es. split; [exact Nj|]. split; [exact Ou|]. split; [left; reflexivity|exact Logic.I]. }
  assert (T' : tied (answers past) w').
  { eapply tied_next; [exact Run|exact O|exact VT| |exact H].
    intros i src b Ea id p Hd j x g Nj Ow. destruct (AR _ _ _ Ea id p Hd) as (j0 & y & Nj0 & Ou & _ & An).
    apply outstanding_owns in Ou. destruct Ou as [g0 Ow0]. assert (j = j0) as -> by (eapply (b_uniq _ IB); eassumption). exact An. }
  assert (RUN' : exists l, wrun me w_init l = Some w' /\ orderly me (fun _ _ => True) w_init l).
  { exists (l ++ [a]). split; [eapply wrun_add; eassumption|eapply orderly_add; eassumption]. }
  assert (K := keeps_exec _ _ _ _ H NC). destruct K as [K _].
  unfold noticed. destruct (done_step _ _ _ _ H) as [E|(f & x & E & Nx & Rx & Nf & Hh & Ein)]; rewrite E.
  - rewrite Nat.eqb_refl. cbn [app]. constructor; try assumption.
    intros i y rq Ny Ry. destruct (K i y rq Ny Ry) as (y0 & Ny0 & Ry0). eapply VC; eassumption.
  - replace (Nat.eqb _ _) with false by (symmetry; apply Nat.eqb_neq; cbn [length]; lia). cbn [app]. constructor.
    + exact RUN'.
    + eapply tied_weaken; [exact T'|]. intros j y p _ _ Q. apply answers_cons; [reflexivity|exact Q].
    + intros i y rq Ny Ry. destruct (K i y rq Ny Ry) as (y0 & Ny0 & Ry0). apply in_call_cons; [reflexivity| |eapply VC; eassumption].
      cbn [finishes]. apply Nat.eqb_neq. intros Ef. rewrite Ef in Nf. rewrite Ny in Nf. injection Nf as ->. discriminate.
    + constructor; [exact Logic.I|exact VO].
    + apply explained_end; [exact VE|].
      destruct RUN' as (l' & Run' & _). destruct (wreach _ _ _ Run') as [IA' _].
      pose proof (a_done _ _ _ IA' f ltac:(rewrite E; left; reflexivity)) as D. unfold done_ok in D.
      destruct (fi_id f) as [id|] eqn:Fi; [right|left; destruct D as (_ & _ & D); rewrite start_none in D; injection D as D; rewrite <- D; reflexivity].
      destruct Hh as [Hh|[Hi Hh]]; [discriminate|]. destruct D as [D Fo].
      intros p2 t x0 p3 Ep Np.
      destruct (VC _ _ _ Nx Rx) as (q1 & dev & t1 & x1 & q2 & Ep1 & B1 & _ & Erq & Hl & Ht & Hx).
      assert (Eq : p2 ++ HCall (fi_thread f) t x0 :: p3 = q1 ++ HCall (fi_thread f) t1 x1 :: q2) by (rewrite <- Ep; exact Ep1).
      destruct (call_uniq _ _ _ _ _ _ _ _ _ Eq Np B1) as (<- & <- & <- & <-). clear Eq Ep1 B1.
      rewrite Erq in D.
      pose proof (id_byte _ _ _ _ _ Run Nx (eq_sym Hi)) as Hid.
      pose proof (start_honest S I (Ms t) me dev t id x0
        (fun s => exists r1 r2, p2 = r1 ++ HServe (fi_thread f) t x0 :: r2 /\ s = now Ms s0 (r2 ++ HCall (fi_thread f) t x0 :: p3))
        Ht Hl Hx Hid Hme (HM t)) as SH.
      assert (HI : forall s, (exists r1 r2, p2 = r1 ++ HServe (fi_thread f) t x0 :: r2 /\ s = now Ms s0 (r2 ++ HCall (fi_thread f) t x0 :: p3)) -> I s).
      { intros s (r1 & r2 & -> & ->). apply now_in. rewrite Ep, <- app_assoc in VO. apply Forall_app in VO. destruct VO as [_ VO].
        inversion VO. assumption. }
      specialize (SH HI). eapply (feed_honest _ _ _ _ _ _ SH) in D.
      * destruct D as [D|(s & (r1 & r2 & E2 & ->) & D)]; [left; exact D|right]. exists r1, r2. auto.
      * intros pl Hpl. apply in_map_iff in Hpl. destruct Hpl as ([e|v] & Et & Hv); cbn [told] in Et; [discriminate|].
        rewrite Forall_forall in Fo. destruct (Fo _ Hv) as (b & Nb & _). rewrite Nb in Et. injection Et as <-.
        rewrite Ein in Nb. destruct (proj2 VT _ _ _ _ _ _ Nx Hh Hv Nb) as (r1 & t' & x' & r2 & Er & Br & Re).
        assert (t' = t /\ x' = x0) as [-> ->].
        { destruct (proj2 VE _ _ _ _ _ Er) as (u1 & u2 & -> & Bu & _).
          rewrite Ep in Er. replace (r1 ++ HServe (fi_thread f) t' x' :: u1 ++ HCall (fi_thread f) t' x' :: u2)
            with ((r1 ++ HServe (fi_thread f) t' x' :: u1) ++ HCall (fi_thread f) t' x' :: u2) in Er by (rewrite <- app_assoc; reflexivity).
          destruct (call_uniq _ _ _ _ _ _ _ _ _ Er Np) as (_ & -> & -> & _); [|auto].
          rewrite existsb_app. cbn [existsb begins]. rewrite Br, Bu. reflexivity. }
        rewrite Ep in Er. symmetry in Er. destruct (serve_within _ _ _ _ _ _ _ _ _ Er Br) as (r & -> & ->).
        eexists. split; [exists r1, r; split; reflexivity|exact Re].
    + apply two_quiet; [exact V2|reflexivity].
    + apply twice_quiet; [exact V3|reflexivity].
Qed.

Lemma jinv_call : forall w past i dev t x w', jinv w past -> spot_ok t -> lives dev t -> op_ok x ->
  wexec me w (WCall i (call_of dev x)) = Some w' -> jinv w' (HCall i t x :: past).
Proof.
  intros w past i dev t x w' [(l & Run & Or) VT VC VO VE V2 V3] Ht Hl Hx H.
  pose proof (wreachO _ _ _ _ Run Or) as O.
  assert (T' : tied (answers past) w') by (eapply (tied_next _ _ _ _ _ _ _ Run O VT); [|exact H]; intros ? ? ? C; discriminate C).
  assert (RUN' : exists l, wrun me w_init l = Some w' /\ orderly me (fun _ _ => True) w_init l).
  { exists (l ++ [WCall i (call_of dev x)]). split; [eapply wrun_add; eassumption|eapply orderly_add; [exact Run|exact Or|exact Logic.I]]. }
  unfold wexec in H. destruct (w_dead w); [discriminate|]. destruct (nth_error (w_ph w) i) as [[]|] eqn:N; try discriminate.
  destruct (exec _ _) as [s|]; [|discriminate]. injection H as <-. constructor.
  - exact RUN'.
  - eapply tied_weaken; [exact T'|]. intros j y p Nj Q A. apply answers_cons; [|exact A]. cbn [begins]. apply Nat.eqb_neq. intros <-.
    cbn [with_ph with_tsm w_ph] in Nj. rewrite (upd_same _ _ _ _ _ N) in Nj. injection Nj as <-. destruct Q as [Q|Q]; apply Q; reflexivity.
  - intros j y rq Nj Rj. cbn [with_ph with_tsm w_ph] in Nj. destruct (upd_inv _ _ _ _ _ _ Nj) as [[-> ->]|[D Nj']].
    + cbn in Rj. injection Rj as <-. exists [], dev, t, x, past. cbn [app existsb]. repeat (split; [reflexivity|]). auto.
    + apply in_call_cons; [cbn [begins]; apply Nat.eqb_neq; auto|reflexivity|eapply VC; eassumption].
  - constructor; [exact Logic.I|exact VO].
  - apply explained_quiet; [exact VE|discriminate|discriminate].
  - apply two_quiet; [exact V2|reflexivity].
  - apply twice_quiet; [exact V3|reflexivity].
Qed.

Lemma served0 : forall i p2 t x p3, SpecLinear.served i (p2 ++ @HServe S i t x :: p3) = 0%nat -> existsb (begins i) p2 = true.
Proof.
  intros i. induction p2 as [|[j t' x'|j t' x'|s|j r] p2 IH]; intros t x p3 E; cbn [app SpecLinear.served existsb begins] in *.
  - rewrite Nat.eqb_refl in E. discriminate.
  - destruct (Nat.eqb j i); [reflexivity|]. eapply IH. exact E.
  - destruct (Nat.eqb j i); [discriminate|]. eapply IH. exact E.
  - eapply IH. exact E.
  - eapply IH. exact E.
Qed.

Lemma jinv_serve : forall w past i t x y id, jinv w past -> spot_ok t -> op_ok x -> nth_error (w_ph w) i = Some y -> outstanding y = Some id ->
  In (request_to t id x) (sent_by y) -> (SpecLinear.served i past < length (sent_by y))%nat -> (sp_net t = 0 -> sp_mac t = 0) ->
  jinv w (HServe i t x :: past).
Proof.
  intros w past i t x y id [(l & Run & Or) VT VC VO VE V2 V3] Ht Hx N Ou Hin Hlt Hn.
  assert (exists rq, req_of y = Some rq) as [rq Rq] by (destruct y; cbn in *; try discriminate; eexists; reflexivity).
  destruct (VC _ _ _ N Rq) as (q1 & dev & t1 & x1 & q2 & Ep & B & F & -> & Hl & Ht1 & Hx1).
  destruct (sent_are _ _ _ _ _ _ _ _ Run N Ou Rq Hl Ht1 Hx1) as [Hlen Hs].
  destruct (datagram_inj t t1 id id x x1 Ht Ht1 Hn (spot_norm _ _ Hl) Hx Hx1 (Hs _ Hin)) as [<- <-].
  constructor.
  - exists l. auto.
  - eapply tied_weaken; [exact VT|]. intros j z p _ _ A. apply answers_cons; [reflexivity|exact A].
  - intros j z rq Nj Rj. apply in_call_cons; [reflexivity|reflexivity|eapply VC; eassumption].
  - constructor; [exact Hx|exact VO].
  - apply explained_serve; [exact VE|]. exists q1, q2. auto.
  - intros j [|h r1] t' x' r2 E Br; [discriminate|]. injection E as <- E. cbn [existsb begins orb] in Br. cbn [SpecLinear.served].
    destruct (Nat.eqb i j) eqn:Eij; [|eapply V2; eassumption]. apply Nat.eqb_eq in Eij. subst j.
    rewrite Ep in E. destruct (call_uniq _ _ _ _ _ _ _ _ _ E B Br) as (_ & _ & <- & _). lia.
  - intros [|h p1] j t1 x1 p2 t' x' p3 E Br; [|injection E as _ E; eapply V3; eassumption].
    injection E as <- <- <- E. destruct (attempts x) as [|[|[|k]]] eqn:Ea; try (destruct x; discriminate); try reflexivity.
    exfalso. rewrite E in Hlt. assert (SpecLinear.served i (p2 ++ HServe i t' x' :: p3) = 0%nat) as Z0 by lia.
    apply served0 in Z0. congruence.
Qed.

Lemma jinv_step : forall w past a w' past', jinv w past -> jstep I me Ms s0 (w, past) a (w', past') -> jinv w' past'.
Proof.
  intros w past a w' past' V J. destruct a as [i dev t x|a|i t x|s]; cbn [jstep] in J.
  - destruct J as (Ht & Hl & Hx & H & ->). eapply jinv_call; eassumption.
  - destruct J as (Ti & H & ->). eapply jinv_client; eassumption.
  - destruct J as (Ht & Hx & (y & id & N & Ou & Hin & Hlt) & Hn & -> & ->). eapply jinv_serve; eassumption.
  - destruct J as (Hs & -> & ->). destruct V as [VR VT VC VO VE V2 V3]. constructor.
    + exact VR.
    + eapply tied_weaken; [exact VT|]. intros j z p _ _ A. apply answers_cons; [reflexivity|exact A].
    + intros j z rq Nj Rj. apply in_call_cons; [reflexivity|reflexivity|eapply VC; eassumption].
    + constructor; [exact Hs|exact VO].
    + apply explained_quiet; [exact VE|discriminate|discriminate].
    + apply two_quiet; [exact V2|reflexivity].
    + apply twice_quiet; [exact V3|reflexivity].
Qed.

Lemma jinv_reach : forall J, jreach I me Ms s0 J -> jinv (fst J) (snd J).
Proof.
  intros J R. induction R as [|[w past] a [w' past'] R IH St].
  - cbn [fst snd]. constructor.
    + exists []. split; [reflexivity|exact Logic.I].
    + split; [intros [|i]|intros [|i]]; cbn; discriminate.
    + intros [|i]; cbn; discriminate.
    + constructor.
    + split; [intros [|h p1]|intros [|h p1]]; discriminate.
    + intros i [|h q1]; discriminate.
    + intros [|h p1]; discriminate.
  - eapply jinv_step; [exact IH|exact St].
Qed.

Lemma served_pos : forall i past, SpecLinear.served i past <> 0%nat -> exists q1 t x q2, past = q1 ++ @HServe S i t x :: q2 /\ existsb (begins i) q1 = false.
Proof.
  intros i. induction past as [|h past IH]; intros N; [contradiction N; reflexivity|].
  assert (begins i h = false -> SpecLinear.served i past <> 0%nat -> exists q1 t x q2, h :: past = q1 ++ @HServe S i t x :: q2 /\ existsb (begins i) q1 = false) as G.
  { intros B N1. destruct (IH N1) as (q1 & t & x & q2 & -> & B1). exists (h :: q1), t, x, q2. split; [reflexivity|]. cbn [existsb]. rewrite B. exact B1. }
  destruct h as [j t x|j t x|s|j r]; cbn [SpecLinear.served] in N; try (apply G; [reflexivity|exact N]).
  - destruct (Nat.eqb j i) eqn:E; [contradiction N; reflexivity|]. apply G; [exact E|exact N].
  - destruct (Nat.eqb j i) eqn:E; [|apply G; [reflexivity|exact N]]. apply Nat.eqb_eq in E. subst j. exists [], t, x, past. auto.
Qed.

Lemma joint_explained : forall w past, jreach I me Ms s0 (w, past) -> explained Ms s0 past.
Proof. intros w past R. apply (v_exp _ _ (jinv_reach _ R)). Qed.
Lemma joint_twice : forall w past, jreach I me Ms s0 (w, past) ->
  (forall i, (SpecLinear.served i past <= 2)%nat)
  /\ forall p1 i t x p2 t' x' p3, past = p1 ++ HServe i t x :: p2 ++ HServe i t' x' :: p3 -> existsb (begins i) p2 = false ->
     exists o p idx v prio, x = OWrite o p idx v prio.
Proof.
  intros w past R. destruct (jinv_reach _ R) as [_ _ _ _ VE V2 V3]. cbn [fst snd] in *. split.
  - intro i. destruct (Nat.eq_dec (SpecLinear.served i past) 0) as [->|N]; [lia|].
    destruct (served_pos i past N) as (q1 & t & x & q2 & E & B). destruct (proj2 VE _ _ _ _ _ E) as (r1 & r2 & -> & B1 & _).
    eapply Nat.le_trans; [apply (V2 i (q1 ++ HServe i t x :: r1) t x r2)|destruct x; cbn; lia].
    + rewrite E, <- app_assoc. reflexivity.
    + rewrite existsb_app. cbn [existsb begins]. rewrite B, B1. reflexivity.
  - intros p1 i t x p2 t' x' p3 E B. pose proof (V3 _ _ _ _ _ _ _ _ E B) as A. destruct x as [|o p idx v prio]; [discriminate|].
    exists o, p, idx, v, prio. reflexivity.
Qed.
Lemma joint_once : forall w past, jreach I me Ms s0 (w, past) -> once past -> linearizable Ms s0 (filter SpecLinear.outside past).
Proof. intros w past R O. exists past. split; [reflexivity|]. split; [eapply joint_explained; exact R|exact O]. Qed.
Lemma joint_reads : forall w past, jreach I me Ms s0 (w, past) ->
  (forall i t x, In (HCall i t x) past -> exists o p idx, x = ORead o p idx) -> linearizable Ms s0 (filter SpecLinear.outside past).
Proof.
  intros w past R A. eapply joint_once; [exact R|]. intros p1 i t x p2 t' x' p3 E.
  destruct (existsb (begins i) p2) eqn:B; [reflexivity|exfalso].
  destruct (proj2 (joint_twice _ _ R) _ _ _ _ _ _ _ _ E B) as (o & p & idx & v & prio & ->).
  destruct (proj2 (joint_explained _ _ R) _ _ _ _ _ E) as (q1 & q2 & E2 & _).
  destruct (A i t (OWrite o p idx v prio)) as (o' & p' & idx' & C); [|discriminate].
  rewrite E, E2. apply in_or_app. right. right. apply in_or_app. right. left. reflexivity.
Qed.
End Joint.

(** ** Runs that can be computed *)

Inductive mv :=
| MCall (i : nat) (dev : device) (t : spot) (x : SpecDevice.op)
| MPlain (a : waction)
| MServe (i : nat) (t : spot) (x : SpecDevice.op) (id : Z)
| MArrive (i : nat) (src : address) (k : nat) (id : Z)
| MRet (i : nat).
Definition good_mv (m : mv) : Prop :=
  match m with
  | MCall _ dev t x => spot_ok t /\ lives dev t /\ op_ok x
  | MServe _ t x _ => spot_ok t /\ op_ok x
  | _ => True
  end.
Definition dg_dec : forall a b : datagram, {a = b} + {a <> b}.
Proof. decide equality; [apply (list_eq_dec Z.eq_dec)|apply Z.eq_dec|apply (list_eq_dec Z.eq_dec)]. Defined.
Definition id_is (y : phase) (id : Z) : bool := match outstanding y with Some i => i =? id | None => false end.
Definition plain (a : waction) : bool := match a with WSpawn | WTx _ _ | WTsm _ => true | _ => false end.
Definition ret_free (w : world) (j : nat) : bool :=
  match nth_error (w_ph w) j with
  | Some x => match outstanding x with
              | Some id => forallb (fun y => match y with
                                             | NHandle v => match nth_error (w_in w) v with Some a => negb (ar_id a =? id) | None => true end
                                             | _ => true
                                             end) (w_ph w)
              | None => true
              end
  | None => true
  end.
Definition reply_npdu : npdu := mkNpdu 1 None None 0 false 0 false 0 255.
Definition play1 {S} (me : option address) (Ms : spot -> machine S) (s0 : S) (m : mv) (J : joint S) : option (joint S) :=
  let (w, past) := J in
  let go a := match wexec me w a with Some w' => Some (w', noticed w w' ++ past) | None => None end in
  match m with
  | MCall i dev t x => match wexec me w (WCall i (call_of dev x)) with Some w' => Some (w', HCall i t x :: past) | None => None end
  | MPlain a => if plain a then go a else None
  | MServe i t x id =>
      match nth_error (w_ph w) i with
      | Some y => if id_is y id && (if in_dec dg_dec (request_to t id x) (sent_by y) then true else false)
                     && Nat.ltb (SpecLinear.served i past) (length (sent_by y)) && (negb (sp_net t =? 0) || (sp_mac t =? 0))
                  then Some (w, HServe i t x :: past) else None
      | None => None
      end
  | MArrive i src k id =>
      match skipn k past with
      | HServe j t x :: q2 =>
          match nth_error (w_ph w) j with
          | Some y => if id_is y id && negb (Nat.eqb (length (sent_by y)) 0) && negb (existsb (begins j) (firstn k past))
                      then go (WArrive i src (spec_bvlc 10 (spec_npdu reply_npdu ++ snd (react (Ms t) id x (now Ms s0 q2))))) else None
          | None => None
          end
      | _ => None
      end
  | MRet j => if ret_free w j then go (WRet j) else None
  end.
Fixpoint play {S} (me : option address) (Ms : spot -> machine S) (s0 : S) (l : list mv) (J : joint S) : option (joint S) :=
  match l with
  | [] => Some J
  | m :: t => match play1 me Ms s0 m J with Some J' => play me Ms s0 t J' | None => None end
  end.

Lemma id_is_true : forall y id, id_is y id = true -> outstanding y = Some id.
Proof. intros y id H. unfold id_is in H. destruct (outstanding y); [|discriminate]. apply Z.eqb_eq in H. congruence. Qed.

Lemma play1_reach : forall S (I : S -> Prop) me Ms s0 m J J', good_mv m -> jreach I me Ms s0 J -> play1 me Ms s0 m J = Some J' -> jreach I me Ms s0 J'.
Proof.
  intros S I me Ms s0 m [w past] J' G R P. cbn [play1] in P.
  assert (GO : forall a, timely Ms s0 w past a -> match wexec me w a with Some w' => Some (w', noticed w w' ++ past) | None => None end = Some J' -> jreach I me Ms s0 J').
  { intros a T E. destruct (wexec me w a) as [w'|] eqn:H; [|discriminate]. injection E as <-.
    apply (j_next _ _ _ _ _ (JClient a) _ R). cbn [jstep]. auto. }
  destruct m as [i dev t x|a|i t x id|i src k id|j].
  - destruct (wexec me w _) as [w'|] eqn:H; [|discriminate]. injection P as <-.
    apply (j_next _ _ _ _ _ (JCall i dev t x) _ R). cbn [jstep]. cbn [good_mv] in G. tauto.
  - destruct (plain a) eqn:Pl; [|discriminate]. eapply GO; [|exact P]. destruct a; try discriminate; exact Logic.I.
  - destruct (nth_error (w_ph w) i) as [y|] eqn:N; [|discriminate].
    destruct (in_dec dg_dec (request_to t id x) (sent_by y)) as [Hin|]; [|rewrite andb_false_r in P; discriminate].
    rewrite andb_true_r in P. destruct (id_is y id) eqn:Ei; [|discriminate].
    destruct (Nat.ltb _ _) eqn:Hlt; [|discriminate]. apply Nat.ltb_lt in Hlt.
    destruct (negb (sp_net t =? 0) || (sp_mac t =? 0)) eqn:Hm; [|discriminate]. cbn [andb] in P. injection P as <-.
    apply (j_next _ _ _ _ _ (JServe i t x) _ R). cbn [jstep]. destruct G as [G1 G2]. split; [exact G1|]. split; [exact G2|]. split.
    + exists y, id. split; [exact N|]. split; [apply id_is_true; exact Ei|auto].
    + split; [|auto]. intro Z0. rewrite Z0 in Hm. cbn in Hm. apply Z.eqb_eq. exact Hm.
  - destruct (skipn k past) as [|[| j t x | |] q2] eqn:Sk; try discriminate.
    destruct (nth_error (w_ph w) j) as [y|] eqn:N; [|discriminate].
    destruct (id_is y id) eqn:Ei; [|discriminate].
    destruct (Nat.eqb (length (sent_by y)) 0) eqn:Es; [discriminate|].
    destruct (existsb (begins j) (firstn k past)) eqn:Eb; [discriminate|]. cbn [andb negb] in P. eapply GO; [|exact P].
    cbn [timely]. intros id0 p _. exists j, y, id, 10, reply_npdu, (firstn k past), t, x, q2.
    split; [exact N|]. split; [apply id_is_true; exact Ei|]. split; [intro C; rewrite C in Es; discriminate|].
    split; [rewrite <- Sk; symmetry; apply firstn_skipn|]. split; [exact Eb|]. split; [left; reflexivity|].
    split; [unfold npdu_ok, reply_npdu, is_byte; cbn; lia|]. split; reflexivity.
  - destruct (ret_free w j) eqn:F; [|discriminate]. eapply GO; [|exact P]. cbn [timely].
    intros x id N O i v a Nv Na. unfold ret_free in F. rewrite N, O in F. rewrite forallb_forall in F.
    specialize (F _ (nth_error_In _ _ Nv)). cbn in F. rewrite Na in F. apply negb_true_iff, Z.eqb_neq in F. exact F.
Qed.
Lemma play_reach : forall S (I : S -> Prop) me Ms s0 l J J', Forall good_mv l -> jreach I me Ms s0 J -> play me Ms s0 l J = Some J' -> jreach I me Ms s0 J'.
Proof.
  intros S I me Ms s0. induction l as [|m l IH]; intros J J' G R P; cbn [play] in P; [injection P as <-; exact R|].
  inversion G as [|? ? Gm Gl]; subst. destruct (play1 me Ms s0 m J) as [J1|] eqn:E; [|discriminate].
  eapply IH; [exact Gl| |exact P]. eapply play1_reach; eassumption.
Qed.

(** Goroutine 0 writes 1 and does not get the answer; goroutine 1 reads 1, writes 2,
    and after the second attempt of goroutine 0 has succeeded reads 1 again. *)
Definition lin_at : spot := mkSpot [10; 0; 0; 9] 47808 0 0.
Definition lin_dev : device := mkDev (mkOid 8 9) 1476 (mkAddr 0 0 0 ([10; 0; 0; 9] ++ octets 2 47808) [0]).
Definition lin_o : object_id := mkOid 2 1.
Definition lin_w (n : Z) : SpecDevice.op := OWrite lin_o 85 whole (VUint n) 0.
Definition lin_r : SpecDevice.op := ORead lin_o 85 whole.
Definition lin_src : address := mkAddr 0 0 6 [10; 0; 0; 9; 186; 192] [].
Definition lin_ask (i : nat) (x : SpecDevice.op) : list mv :=
  MCall i lin_dev lin_at x :: map MPlain (wit_id i None ++ wit_wait i).
Definition lin_answer (i : nat) (id : Z) : list mv :=
  MArrive 2 lin_src 0 id :: map MPlain [WTsm (AStep 2); WTsm (AStep 2); WTsm (ADeliver 2 i)] ++ MRet i :: map MPlain (repeat (WTsm (AStep i)) 6).
Definition lin_run : list mv :=
  map MPlain [WSpawn; WSpawn; WSpawn] ++ lin_ask 0 (lin_w 1) ++ [MServe 0 lin_at (lin_w 1) 1] ++ map MPlain (WTsm (ATimeout 0) :: wit_wait 0)
  ++ lin_ask 1 lin_r ++ [MServe 1 lin_at lin_r 2] ++ lin_answer 1 2
  ++ lin_ask 1 (lin_w 2) ++ [MServe 1 lin_at (lin_w 2) 3] ++ lin_answer 1 3.
Definition lin_run2 : list mv :=
  lin_run ++ [MServe 0 lin_at (lin_w 1) 1] ++ lin_answer 0 1 ++ lin_ask 1 lin_r ++ [MServe 1 lin_at lin_r 4] ++ lin_answer 1 4.
Definition lin_got (n : Z) : seen := Got (answer lin_o 85 whole (VUint n)).
Definition lin_past : list (happening Z) :=
  [HEnd 1 Done; HServe 1 lin_at (lin_w 2); HCall 1 lin_at (lin_w 2); HEnd 1 (lin_got 1); HServe 1 lin_at lin_r; HCall 1 lin_at lin_r;
   HServe 0 lin_at (lin_w 1); HCall 0 lin_at (lin_w 1)].
Definition lin_past2 : list (happening Z) :=
  [HEnd 1 (lin_got 1); HServe 1 lin_at lin_r; HCall 1 lin_at lin_r; HEnd 0 Done; HServe 0 lin_at (lin_w 1)] ++ lin_past.
Definition lin_history : list (happening Z) :=
  [HEnd 1 (lin_got 1); HCall 1 lin_at lin_r; HEnd 0 Done; HEnd 1 Done; HCall 1 lin_at (lin_w 2);
   HEnd 1 (lin_got 1); HCall 1 lin_at lin_r; HCall 0 lin_at (lin_w 1)].

Lemma register_ok : machine_ok in_u32 register.
Proof.
  split.
  - intros s o p idx H. cbn [register m_read]. constructor; [exact H|constructor].
  - intros s o p idx v prio H Hv _. cbn [register m_write]. destruct v; try (unfold error_range; cbn [fst snd]; lia). exact Hv.
Qed.
Lemma lin_good : Forall good_mv lin_run2.
Proof.
  assert (Ht : spot_ok lin_at) by (unfold spot_ok, lin_at, is_ip, is_port, is_byte; cbn; repeat split; repeat constructor; lia).
  assert (Hl : lives lin_dev lin_at) by (exists 0; unfold is_byte; split; [lia|split; reflexivity]).
  assert (Hr : op_ok lin_r) by (unfold op_ok, lin_r, valid_oid, valid_property, in_u32, whole; cbn; lia).
  assert (Hw : forall n, 0 <= n < 10 -> op_ok (lin_w n)).
  { intros n Hn. unfold op_ok, lin_w, valid_oid, valid_property, in_u32, is_byte, whole. cbn. unfold in_u32. repeat split; try lia; intros; discriminate. }
  pose proof (Hw 1 ltac:(lia)) as H1. pose proof (Hw 2 ltac:(lia)) as H2.
  unfold lin_run2, lin_run, lin_ask, lin_answer, wit_id, wit_wait. cbn [app map repeat].
  repeat (constructor; [first [exact Logic.I|exact (conj Ht (conj Hl Hr))|exact (conj Ht Hr)|exact (conj Ht (conj Hl H1))|exact (conj Ht H1)|exact (conj Ht (conj Hl H2))|exact (conj Ht H2)]|]). constructor.
Qed.
Lemma lin_reach : forall l past, Forall good_mv l -> option_map snd (play None (fun _ => register) 0 l (w_init, [])) = Some past ->
  exists w, jreach in_u32 None (fun _ => register) 0 (w, past).
Proof.
  intros l past G E. destruct (play None (fun _ => register) 0 l (w_init, [])) as [[w past']|] eqn:P; [|discriminate].
  cbn [option_map snd] in E. injection E as ->. exists w. eapply play_reach; [exact G|apply j_start|exact P].
Qed.
Lemma lin_reach1 : exists w, jreach in_u32 None (fun _ => register) 0 (w, lin_past).
Proof.
  apply (lin_reach lin_run); [|vm_compute; reflexivity]. pose proof lin_good as G. unfold lin_run2 in G. apply Forall_app in G. apply G.
Qed.
Lemma lin_reach2 : exists w, jreach in_u32 None (fun _ => register) 0 (w, lin_past2).
Proof. apply (lin_reach lin_run2); [exact lin_good|vm_compute; reflexivity]. Qed.
Fixpoint once_b {S} (past : list (happening S)) : bool :=
  match past with
  | [] => true
  | HServe i _ _ :: p => Nat.eqb (SpecLinear.served i p) 0 && once_b p
  | _ :: p => once_b p
  end.
Lemma once_check : forall S (past : list (happening S)), once_b past = true -> once past.
Proof.
  intros S past H p1. revert past H. induction p1 as [|h p1 IH]; intros past H i t x p2 t' x' p3 E; subst past; cbn [app once_b] in H.
  - apply andb_true_iff in H. destruct H as [H _]. apply Nat.eqb_eq in H. eapply served0. exact H.
  - eapply IH; [|reflexivity]. destruct h; [exact H|apply andb_true_iff in H; apply H|exact H|exact H].
Qed.
Lemma lin_once : once lin_past.
Proof. apply once_check. vm_compute. reflexivity. Qed.

(** *** The history is not linearizable *)

Lemma filter_cons_split : forall A (f : A -> bool) l a b, filter f l = a :: b ->
  exists l1 l2, l = l1 ++ a :: l2 /\ filter f l1 = [] /\ filter f l2 = b.
Proof.
  induction l as [|c l IH]; intros a b E; cbn [filter] in E; [discriminate|]. destruct (f c) eqn:F.
  - injection E as -> <-. exists [], l. auto.
  - destruct (IH a b E) as (l1 & l2 & -> & F1 & F2). exists (c :: l1), l2. cbn [filter]. rewrite F. auto.
Qed.
Lemma silent : forall S i (l : list (happening S)), filter SpecLinear.outside l = [] -> existsb (begins i) l = false.
Proof.
  intros S i. induction l as [|h l IH]; intros E; [reflexivity|]. cbn [filter] in E. destruct h; cbn [SpecLinear.outside] in E; try discriminate. exact (IH E).
Qed.
Lemma wrote : forall Ms P Q, (forall t, Ms t = register) -> (forall s, ~ In (HChange s) Q) -> now Ms 0 (Q ++ P) = 1 -> now Ms 0 P <> 1 ->
  exists Q1 i t o p idx prio Q2, Q = Q1 ++ HServe i t (OWrite o p idx (VUint 1) prio) :: Q2.
Proof.
  intros Ms P Q HM. induction Q as [|h Q IH]; intros NC E N; [contradiction|].
  destruct (Z.eq_dec (now Ms 0 (Q ++ P)) 1) as [E1|N1].
  - destruct (IH ltac:(intros s Hs; apply (NC s); right; exact Hs) E1 N) as (Q1 & i & t & o & p & idx & prio & Q2 & ->).
    exists (h :: Q1), i, t, o, p, idx, prio, Q2. reflexivity.
  - destruct h as [i t x|i t x|s|i r]; cbn [app now] in E; try contradiction; [|exfalso; apply (NC s); left; reflexivity].
    destruct x as [o p idx|o p idx v prio]; cbn [effect_on] in E; [contradiction|]. unfold accept in E. rewrite HM in E. cbn [register m_write] in E.
    exists [], i, t, o, p, idx, prio, Q. cbn [app].
    destruct v; cbn [meant] in E; try contradiction. destruct (binary_pv o p); [contradiction|]. rewrite E. reflexivity.
Qed.
Lemma begins_count : forall S i (P : list (happening S)), filter (begins i) (filter SpecLinear.outside P) = filter (begins i) P.
Proof.
  intros S i. induction P as [|h P IH]; [reflexivity|]. destruct h as [j t x|j t x|s|j r]; cbn [filter SpecLinear.outside begins]; rewrite IH; reflexivity.
Qed.
Lemma begins_some : forall S i (P : list (happening S)), existsb (begins i) P = true -> (1 <= length (filter (begins i) P))%nat.
Proof.
  intros S i P H. apply existsb_exists in H. destruct H as (h & Hin & Hb).
  destruct (filter (begins i) P) eqn:E; [|cbn; lia]. assert (In h (filter (begins i) P)) as C by (apply filter_In; auto). rewrite E in C. contradiction C.
Qed.

Lemma lin_not : ~ linearizable (fun _ => register) 0 lin_history.
Proof.
  intros (P & F & (X1 & X2) & O). unfold lin_history in F.
  assert (NC : forall s, ~ In (HChange s) P).
  { intros s H. assert (In (HChange s) (filter SpecLinear.outside P)) as C by (apply filter_In; auto). rewrite F in C.
    cbn in C. repeat (destruct C as [C|C]; [discriminate|]). exact C. }
  assert (WHO : forall p1 i t o p idx prio p2, P = p1 ++ HServe i t (OWrite o p idx (VUint 1) prio) :: p2 -> i = 0%nat /\ existsb (begins 0) p2 = true).
  { intros p1 i t o p idx prio p2 E. destruct (X2 _ _ _ _ _ E) as (q1 & q2 & E2 & _).
    assert (In (HCall i t (OWrite o p idx (VUint 1) prio)) (filter SpecLinear.outside P)) as C.
    { apply filter_In. split; [|reflexivity]. rewrite E, E2. apply in_or_app. right. right. apply in_or_app. right. left. reflexivity. }
    rewrite F in C. cbn in C. assert (i = 0%nat) as ->.
    { unfold lin_w, lin_r in C. repeat (destruct C as [C|C]; [try discriminate; injection C as <-; reflexivity|]). contradiction C. }
    split; [reflexivity|]. rewrite E2, existsb_app. cbn [existsb begins]. rewrite Nat.eqb_refl. apply orb_true_r. }
  pose proof F as F0.
  apply filter_cons_split in F. destruct F as (G0 & P1 & EP & _ & F).
  apply filter_cons_split in F. destruct F as (G1 & P2 & EP1 & S1 & F).
  apply filter_cons_split in F. destruct F as (G2 & P3 & EP2 & _ & F).
  apply filter_cons_split in F. destruct F as (G3 & P4 & EP3 & _ & F).
  apply filter_cons_split in F. destruct F as (G4 & P5 & EP4 & S4 & F).
  apply filter_cons_split in F. destruct F as (G5 & P6 & EP5 & _ & F).
  apply filter_cons_split in F. destruct F as (G6 & P7 & EP6 & S6 & F).
  clear F. rewrite EP6 in EP5. rewrite EP5 in EP4. rewrite EP4 in EP3. rewrite EP3 in EP2. rewrite EP2 in EP1. rewrite EP1 in EP.
  clear EP1 EP2 EP3 EP4 EP5 EP6.
  (* the last read *)
  destruct (X1 _ _ _ _ _ _ _ EP (silent _ _ _ S1)) as [C|(q1 & q2 & E1 & R1)]; [discriminate|].
  (* the write of 2 *)
  assert (EPw : P = (G0 ++ HEnd 1 (lin_got 1) :: G1 ++ HCall 1 lin_at lin_r :: G2 ++ HEnd 0 Done :: G3) ++
    HEnd 1 Done :: G4 ++ HCall 1 lin_at (lin_w 2) :: G5 ++ HEnd 1 (lin_got 1) :: G6 ++ HCall 1 lin_at lin_r :: P7).
  { rewrite EP. repeat (rewrite <- ?app_assoc; cbn [app]). reflexivity. }
  destruct (X1 _ _ _ _ _ _ _ EPw (silent _ _ _ S4)) as [C|(q3 & q4 & E2 & _)]; [discriminate|].
  (* the first read *)
  assert (EPr : P = (G0 ++ HEnd 1 (lin_got 1) :: G1 ++ HCall 1 lin_at lin_r :: G2 ++ HEnd 0 Done :: G3 ++ HEnd 1 Done :: G4 ++ HCall 1 lin_at (lin_w 2) :: G5) ++
    HEnd 1 (lin_got 1) :: G6 ++ HCall 1 lin_at lin_r :: P7).
  { rewrite EP. repeat (rewrite <- ?app_assoc; cbn [app]). reflexivity. }
  destruct (X1 _ _ _ _ _ _ _ EPr (silent _ _ _ S6)) as [C|(q5 & q6 & E3 & R3)]; [discriminate|].
  assert (VAL : forall s, lin_got 1 = result_at register lin_r s -> s = 1).
  { intros s E. cbn in E. unfold lin_got, answer in E. injection E as E. symmetry. exact E. }
  apply VAL in R1. apply VAL in R3.
  (* 1 was written before the first read and again after 2 was *)
  destruct (wrote (fun _ => register) [] (q6 ++ HCall 1 lin_at lin_r :: P7)) as (Q1 & i & t & o & p & idx & prio & Q2 & EQ).
  { reflexivity. }
  { intros s Hs. apply (NC s). rewrite EPr, E3. apply in_or_app. right. right. rewrite <- app_assoc. apply in_or_app. right. right. exact Hs. }
  { rewrite app_nil_r. exact R3. }
  { cbn. lia. }
  set (T := q4 ++ HCall 1 lin_at (lin_w 2) :: G5 ++ HEnd 1 (lin_got 1) :: G6 ++ HCall 1 lin_at lin_r :: P7) in *.
  destruct (wrote (fun _ => register) (HServe 1 lin_at (lin_w 2) :: T) (q2 ++ HCall 1 lin_at lin_r :: G2 ++ HEnd 0 Done :: G3 ++ HEnd 1 Done :: q3))
    as (Q1' & i' & t' & o' & p' & idx' & prio' & Q2' & EQ').
  { reflexivity. }
  { intros s Hs. apply (NC s). rewrite EP, E1, E2. apply in_or_app. right. right. rewrite <- app_assoc. apply in_or_app. right. right.
    clear - Hs. rewrite !in_app_iff in *. cbn [In] in *. rewrite !in_app_iff in *. cbn [In] in *. rewrite !in_app_iff in *. cbn [In] in *. rewrite !in_app_iff. tauto. }
  { rewrite E2 in R1. unfold T. repeat (rewrite <- ?app_assoc in R1; cbn [app] in R1). repeat (rewrite <- ?app_assoc; cbn [app]). exact R1. }
  { cbn [now effect_on accept lin_w]. unfold accept. cbn. lia. }
  assert (D : exists a b c, P = a ++ HServe i' t' (OWrite o' p' idx' (VUint 1) prio') :: b ++ HServe i t (OWrite o p idx (VUint 1) prio) :: c).
  { exists (G0 ++ HEnd 1 (lin_got 1) :: q1 ++ HServe 1 lin_at lin_r :: Q1'), (Q2' ++ HServe 1 lin_at (lin_w 2) :: q4 ++ HCall 1 lin_at (lin_w 2) :: G5 ++ HEnd 1 (lin_got 1) :: q5 ++ HServe 1 lin_at lin_r :: Q1), Q2.
    rewrite EP, E1, E2, E3.
    transitivity (G0 ++ HEnd 1 (lin_got 1) :: q1 ++ HServe 1 lin_at lin_r :: (q2 ++ HCall 1 lin_at lin_r :: G2 ++ HEnd 0 Done :: G3 ++ HEnd 1 Done :: q3)
      ++ HServe 1 lin_at (lin_w 2) :: q4 ++ HCall 1 lin_at (lin_w 2) :: G5 ++ HEnd 1 (lin_got 1) :: q5 ++ HServe 1 lin_at lin_r :: (q6 ++ HCall 1 lin_at lin_r :: P7)).
    - repeat (rewrite <- ?app_assoc; cbn [app]). reflexivity.
    - rewrite EQ, EQ'. repeat (rewrite <- ?app_assoc; cbn [app]). reflexivity. }
  destruct D as (a & b & c & D).
  destruct (WHO _ _ _ _ _ _ _ _ D) as [-> _].
  assert (D2 : P = (a ++ HServe 0 t' (OWrite o' p' idx' (VUint 1) prio') :: b) ++ HServe i t (OWrite o p idx (VUint 1) prio) :: c) by (rewrite D, <- app_assoc; reflexivity).
  destruct (WHO _ _ _ _ _ _ _ _ D2) as [-> Bc].
  pose proof (O _ _ _ _ _ _ _ _ D) as Bb.
  pose proof (begins_count _ 0%nat P) as CT. rewrite F0 in CT. rewrite D in CT. apply (f_equal (@length _)) in CT.
  rewrite filter_app in CT. cbn [filter begins] in CT. rewrite filter_app in CT. cbn [filter begins] in CT. rewrite !app_length in CT. cbn in CT.
  pose proof (begins_some _ _ _ Bc). pose proof (begins_some _ _ _ Bb). lia.
Qed.
Lemma lin_refuted : exists (S : Type) (I : S -> Prop) (me : option address) (Ms : spot -> machine S) (s0 : S) (w : world) (past : list (happening S)),
  (forall t, machine_ok I (Ms t)) /\ I s0 /\ present me = false /\ jreach I me Ms s0 (w, past) /\ ~ linearizable Ms s0 (filter SpecLinear.outside past).
Proof.
  destruct lin_reach2 as (w & R). exists Z, in_u32, None, (fun _ => register), 0, w, lin_past2.
  split; [intros _; exact register_ok|]. split; [unfold in_u32; lia|]. split; [reflexivity|]. split; [exact R|exact lin_not].
Qed.
