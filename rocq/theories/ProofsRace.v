(** Proofs about data races: C139. *)
Require Import List ZArith Bool Lia.
From Verif Require Import ModelClient ModelSystem ModelScan ModelWhole SpecSystem SpecWhole SpecRace.
From Verif Require ModelUtsm.
From Verif Require Import ModelTsm SpecTsm.
From Verif Require Import ProofsTsm ProofsSystem ProofsSystemProps ProofsWhole.
Import ListNotations ModelTsm.
Open Scope Z_scope.

(** an object that is about to get its channel is in no entry of the table but one that
    is being removed *)
Lemma made_closed : forall s i id o id' g, inv1 s -> inv2 s -> nth_error (sy_thr s) i = Some (IDMake id o) ->
  In (id', (o, g)) (sy_table s) -> exists j p, nth_error (sy_thr s) j = Some p /\ closing p = Some (id', (o, g)).
Proof. intros s i id o id' g I J N T. apply (shared_closing s id' o g I J T). exact (own_count s i _ o N (or_introl eq_refl)). Qed.

Lemma race_data : forall me l w i j p q o k, wrun me w_init l = Some w -> i <> j ->
  nth_error (sy_thr (w_tsm w)) i = Some p -> data_access p = Some (o, Writes) ->
  nth_error (sy_thr (w_tsm w)) j = Some q -> data_access q = Some (o, k) ->
  exists id id' v g, p = IDMake id o /\ q = SendEval id' v o g /\ exists c, In (EClosed c id' g) (sy_log (w_tsm w)).
Proof.
  intros me l w i j p q o k R D Ni P Nj Q. destruct (wreach me l w R) as [IA IB]. destruct (winvA_inv _ _ _ IA) as (I & J & K).
  destruct p; try discriminate P. injection P as ->. destruct q; try discriminate Q.
  - (* IDMake *) injection Q as -> <-. exfalso. pose proof (two_own _ _ _ _ _ o Ni Nj D eq_refl eq_refl) as T.
    pose proof (j_objs _ J o). pose proof (pooled_le_tab _ o I). lia.
  - (* PutClose *) injection Q as -> <-. exfalso. pose proof (i_put _ I _ _ _ Nj eq_refl) as T.
    pose proof (tab_count _ _ _ _ T). pose proof (own_count _ _ _ o Ni (or_introl eq_refl)). pose proof (j_objs _ J o).
    pose proof (proj1 (cn_perm _ _) (others_pooled _ _ _ I Nj eq_refl) o) as E. cbn [pooled_objs] in E. rewrite cn_nil in E. lia.
  - (* SendEval *) injection Q as -> <-. eexists _, _, _, _. split; [reflexivity|]. split; [reflexivity|].
    pose proof (k_found _ K _ _ _ _ _ Nj eq_refl) as [_ [T|C]]; [|exact C].
    destruct (made_closed _ _ _ _ _ _ I J Ni T) as (c & pc & Nc & C). exact (j_close _ J _ _ _ _ _ Nc C).
  - (* RecvEval *) injection Q as -> <-. exfalso. destruct (ph_of _ _ _ _ _ IA Nj) as (x & Nx & F).
    assert (exists rq h tr kk, x = NRecv rq id0 g h tr kk) as (rq & h & tr & kk & ->).
    { destruct x; cbn in F; try discriminate F; try contradiction; [|destruct F as (a & _ & []) ]. destruct F as [-> ->]. eauto. }
    pose proof (k_found _ K _ _ _ _ _ Nj eq_refl) as [_ [T|[c C]]]; [|exact (b_open _ IB _ _ _ _ c Nx eq_refl eq_refl C)].
    destruct (made_closed _ _ _ _ _ _ I J Ni T) as (c & pc & Nc & C). destruct (j_close _ J _ _ _ _ _ Nc C) as [c' C'].
    exact (b_open _ IB _ _ _ _ c' Nx eq_refl eq_refl C').
Qed.

(** ** Without reuse *)
Definition newborn (s : sys) : Prop := forall i id o, nth_error (sy_thr s) i = Some (IDMake id o) -> data_of s o = None.
Lemma newborn_step : forall s a s', inv1 s -> inv2 s -> exec s a = Some s' -> reuses a = false -> newborn s -> newborn s'.
Proof.
  intros s a s' I J H NR B i9 id9 o9 N9. exec_cases H; pose proof (fun N => B i9 id9 o9 N) as JF; unfold data_of in *; fields;
    try (apply JF; exact N9);
    try (apply upd_inv in N9; destruct N9 as [[-> Q]|[D N9]]; [try discriminate Q|try (apply JF; exact N9)]).
  all: try discriminate NR.
  all: try (apply spawn_inv in N9; destruct N9 as [N9|[-> N9]]; [auto|discriminate]).
  all: try (destruct o; discriminate).
  - assert (o9 <> o).
    { intros ->. pose proof (two_own s i _ i9 _ o Hth N9 (not_eq_sym D) eq_refl eq_refl) as T. pose proof (j_objs s J o).
      pose proof (pooled_le_tab s o I). lia. }
    rewrite upd_other by congruence. exact (JF N9).
  - injection Q as -> ->. rewrite nth_error_app2, Nat.sub_diag by lia. reflexivity.
  - specialize (JF N9). destruct (Nat.lt_ge_cases o9 (length (sy_objs s))) as [L|L]; [rewrite nth_error_app1 by exact L; exact JF|].
    rewrite nth_error_app2 by exact L. destruct (o9 - length (sy_objs s))%nat as [|[|n]]; reflexivity.
  - apply upd_inv in N9. destruct N9 as [[-> Q]|[D2 N9]]; [discriminate|]. apply JF. exact N9.
Qed.
Lemma newborn_run : forall l s s', inv1 s -> inv2 s -> inv3 s -> run s l = Some s' -> forallb (fun a => negb (reuses a)) l = true -> newborn s -> newborn s'.
Proof.
  induction l as [|a l IH]; cbn; intros s s' I J K H F B; [injection H as <-; exact B|].
  destruct (exec s a) as [s1|] eqn:E; [|discriminate]. apply andb_prop in F. destruct F as [Fa F].
  apply (IH s1 s'); eauto using exec_inv1, exec_inv2, exec_inv3. apply (newborn_step s a); auto. destruct (reuses a); [discriminate|reflexivity].
Qed.
Lemma no_race_data : forall me l w i j p q o k, wrun me w_init l = Some w -> forallb (fun a => negb (recycles a)) l = true -> i <> j ->
  nth_error (sy_thr (w_tsm w)) i = Some p -> data_access p = Some (o, Writes) ->
  nth_error (sy_thr (w_tsm w)) j = Some q -> data_access q = Some (o, k) -> False.
Proof.
  intros me l w i j p q o k R F D Ni P Nj Q. destruct (race_data _ _ _ _ _ _ _ _ _ R D Ni P Nj Q) as (id & id' & v & g & -> & -> & _).
  destruct (wreach me l w R) as [IA _]. destruct (winvA_inv _ _ _ IA) as (_ & _ & K). destruct (a_tsm _ _ _ IA) as (tl & T & FT).
  assert (B : newborn (w_tsm w)).
  { apply (newborn_run tl (init defaultStateSize)); auto using init_inv1, init_inv2, init_inv3. intros [|n] x y E; discriminate E. }
  pose proof (k_found _ K _ _ _ _ _ Nj eq_refl) as [N _]. apply N. exact (B _ _ _ Ni).
Qed.

(** ** The whole client *)
Lemma races : forall bcast me l z a b v, zrun bcast me z_init l = Some z -> race z a b v ->
  (exists i, v = Err i /\ (a = Main i /\ b = Sender i \/ a = Sender i /\ b = Main i))
  \/ exists o i j id id' x g, v = Data o /\ a = Main i /\ b = Main j
     /\ nth_error (sy_thr (w_tsm (z_w z))) i = Some (IDMake id o) /\ nth_error (sy_thr (w_tsm (z_w z))) j = Some (SendEval id' x o g)
     /\ exists c, In (EClosed c id' g) (sy_log (w_tsm (z_w z))).
Proof.
  intros bcast me l z a b v R (D & k & A & B). destruct (projects _ _ _ _ R) as ((lw & RW & _) & _ & _).
  inversion A as [i p o k0 Ni P|i q t e s store N1 N2 N3|i q s store t e N1|i x N1 N2|i x f N1 N2]; subst;
  inversion B as [j p' o' k' Nj P'|j q' t' e' s' store' M1 M2 M3|j q' s' store' t' e' M1|j x' M1 M2|j x' f' M1 M2]; subst; try (contradiction D; reflexivity);
    try (left; eexists; split; [reflexivity|]; tauto).
  right. assert (D' : i <> j) by congruence. destruct (race_data _ _ _ _ _ _ _ _ _ RW D' Ni P Nj P') as (id & id' & x & g & -> & -> & C).
  exists o, i, j, id, id', x, g. auto 10.
Qed.

Definition scanless (y : syst) : Prop := forall i x, nth_error (y_ph y) i = Some x -> sender_of x = None.
Lemma scanless_upd : forall y i x u ph ps d, scanless y -> sender_of x = None -> scanless (mkY u (upd (y_ph y) i x) ph ps d).
Proof. intros y i x u ph ps d H N j z E. cbn in E. apply upd_inv in E. destruct E as [[-> ->]|[_ E]]; [exact N|exact (H _ _ E)]. Qed.
Lemma scanless_publish : forall y i ps b y', y_publish y i ps b = Some y' -> scanless y -> scanless y'.
Proof.
  intros y i ps b y' H S. unfold y_publish in H. destruct ps as [|[k x] ps].
  - injection H as <-. destruct b; apply scanless_upd; auto.
  - destruct (ModelUtsm.uexec _ _); [|discriminate]. injection H as <-. apply scanless_upd; auto.
Qed.
Lemma scanless_step : forall bcast me y a y', yexec bcast me y a = Some y' -> (forall i q, a <> YCall i q) -> scanless y -> scanless y'.
Proof.
  intros bcast me y a y' H NC S. unfold yexec in H. destruct (y_dead y); [discriminate|].
  assert (N : forall i x, nth_error (y_ph y) i = Some x -> sender_of x = None) by exact S.
  destruct a as [|i q|i src b known|i ok|i|i|i|a].
  - destruct (ModelUtsm.uexec _ _); [|discriminate]. injection H as <-. intros i x E. cbn in E.
    destruct (Nat.lt_ge_cases i (length (y_ph y))) as [L|L]; [rewrite nth_error_app1 in E by exact L; exact (S _ _ E)|].
    rewrite nth_error_app2 in E by exact L. destruct (i - length (y_ph y))%nat as [|n]; [injection E as <-; reflexivity|destruct n; discriminate E].
  - contradiction (NC i q eq_refl).
  - destruct (nth_error (y_ph y) i) as [[]|]; try discriminate. destruct (handleMsg _ _ _) as [eff panics]. exact (scanless_publish _ _ _ _ _ H S).
  - destruct (nth_error (y_ph y) i) as [x|] eqn:E; [|discriminate]. specialize (N _ _ E). destruct x; try discriminate N; discriminate H.
  - destruct (nth_error (y_ph y) i) as [x|] eqn:E; [|discriminate]. specialize (N _ _ E). destruct x; try discriminate N; discriminate H.
  - destruct (nth_error (y_ph y) i) as [x|] eqn:E; [|discriminate]. specialize (N _ _ E). destruct x; try discriminate N; discriminate H.
  - destruct (nth_error (y_ph y) i) as [x|] eqn:E; [|discriminate]. specialize (N _ _ E). destruct x; try discriminate N; discriminate H.
  - destruct (y_inside a); [|discriminate]. destruct (ModelUtsm.uexec (y_u y) a) as [u|]; [|discriminate].
    destruct (Nat.eqb _ _); [injection H as <-; exact S|]. destruct (ModelUtsm.u_log u) as [|e r]; [injection H as <-; exact S|].
    destruct e as [i id v|i|i s lo hi|i s store]; cbn [y_returned] in H; try (injection H as <-; exact S).
    + change (y_ph (y_setu y u)) with (y_ph y) in H. destruct (nth_error (y_ph y) i) as [x|] eqn:E; [|injection H as <-; exact S].
      specialize (N _ _ E). destruct x as [|q t e|q s st t e|q s st t e|ps b]; try discriminate N; try (injection H as <-; exact S).
      destruct ps as [|p ps]; [injection H as <-; exact S|]. exact (scanless_publish _ _ _ _ _ H S).
    + change (y_ph (y_setu y u)) with (y_ph y) in H. destruct (nth_error (y_ph y) i) as [x|] eqn:E; [|injection H as <-; exact S].
      specialize (N _ _ E). destruct x; try discriminate N; injection H as <-; exact S.
Qed.
Lemma scanless_run : forall bcast me l y y', yrun bcast me y l = Some y' -> (forall i q, ~ In (YCall i q) l) -> scanless y -> scanless y'.
Proof.
  induction l as [|a l IH]; intros y y' H NC S; [injection H as <-; exact S|]. cbn [yrun] in H. destruct (yexec bcast me y a) as [y1|] eqn:E; [|discriminate].
  apply (IH y1 y' H); [intros i q X; exact (NC i q (or_intror X))|]. apply (scanless_step bcast me y a y1 E); [|exact S]. intros i q ->. exact (NC i q (or_introl eq_refl)).
Qed.

Lemma no_races : forall bcast me l z a b v, zrun bcast me z_init l = Some z ->
  (forall i q, ~ In (ZScan i q) l) -> forallb (fun x => negb (pool_reuse x)) l = true -> ~ race z a b v.
Proof.
  intros bcast me l z a b v R NS F RC. destruct (projects _ _ _ _ R) as ((lw & RW & SW) & (ly & RY & [_ SY]) & _).
  assert (S : scanless (z_y z)).
  { apply (scanless_run bcast me ly y_init); [exact RY| |intros [|n] x E; discriminate E]. intros i q H. apply SY in H. exact (NS i q H). }
  assert (FW : forallb (fun x => negb (recycles x)) lw = true).
  { apply forallb_forall. intros x Hx. rewrite forallb_forall in F. pose proof (SW x Hx) as Y. destruct x; try reflexivity. exact (F _ Y). }
  destruct RC as (D & k & A & B).
  inversion A as [i p o k0 Ni P|i q t e s store N1 N2 N3|i q s store t e N1|i x N1 N2|i x f N1 N2]; subst.
  - inversion B as [j p' o' k' Nj P'| | | |]; subst. refine (no_race_data me lw (z_w z) i j p p' o k RW FW _ Ni P Nj P'). congruence.
  - specialize (S _ _ N1). discriminate S.
  - specialize (S _ _ N1). congruence.
Qed.

(** a discovery call in its select that has not made its transmission *)
Lemma scan_races : forall bcast me z i q e s store, z_dead z = false -> nth_error (y_ph (z_y z)) i = Some (YSub q TNot e) ->
  nth_error (ModelUtsm.u_thr (y_u (z_y z))) i = Some (ModelUtsm.SubWait s store) -> ModelUtsm.u_lock (y_u (z_y z)) = None ->
  exists z', zexec bcast me z (ZY (YIn (ModelUtsm.VTimeout i))) = Some z' /\ race z' (Main i) (Sender i) (Err i).
Proof.
  intros bcast me z i q e s store ND N1 N2 L. unfold zexec. rewrite ND. cbn [y_step]. unfold z_do_y, yexec.
  unfold z_dead in ND. destruct (y_dead (z_y z)) eqn:DY; [discriminate|]. cbn [y_inside ModelUtsm.uexec]. rewrite N2.
  unfold ModelUtsm.u_set at 1. cbn [ModelUtsm.u_log]. rewrite Nat.eqb_refl. eexists. split; [reflexivity|].
  split; [discriminate|]. exists Writes. split.
  - apply (acc_result _ i q TNot e s store); cbn; [exact N1| |exact L]. apply nth_error_split in N2. destruct N2 as (a & b & -> & <-).
    clear. induction a as [|x a IH]; [reflexivity|exact IH].
  - apply (acc_sent _ i (YSub q TNot e)); [exact N1|reflexivity].
Qed.
