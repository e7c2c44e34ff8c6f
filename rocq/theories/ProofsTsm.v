(** * Invariants of the transaction manager, for every interleaving *)

Require Import List ZArith Bool Lia Permutation.
Require Import Verif.ModelTsm Verif.SpecTsm.
Import ListNotations.
Open Scope Z_scope.

(** ** Lists *)

Lemma upd_length : forall A (l : list A) i x, length (upd l i x) = length l.
Proof. induction l; intros [|i] x; cbn; auto. Qed.

Lemma upd_same : forall A (l : list A) i x a,
  nth_error l i = Some a -> nth_error (upd l i x) i = Some x.
Proof. induction l; intros [|i] x b H; cbn in *; try discriminate; eauto. Qed.

Lemma upd_other : forall A (l : list A) i j x,
  i <> j -> nth_error (upd l i x) j = nth_error l j.
Proof.
  induction l; intros [|i] [|j] x H; cbn; auto; try congruence.
Qed.

Lemma upd_inv : forall A (l : list A) i x j p,
  nth_error (upd l i x) j = Some p ->
  (j = i /\ p = x) \/ (j <> i /\ nth_error l j = Some p).
Proof.
  intros A l i x j p H.
  destruct (Nat.eq_dec j i) as [->|E].
  - left. split; [reflexivity|].
    destruct (nth_error l i) eqn:N.
    + rewrite (upd_same _ _ _ x _ N) in H. congruence.
    + apply nth_error_None in N. assert (nth_error (upd l i x) i = None) as Q.
      { apply nth_error_None. rewrite upd_length. exact N. }
      congruence.
  - right. split; [exact E|]. rewrite upd_other in H; auto.
Qed.

Lemma upd_flat : forall A B (f : A -> list B) l i a x,
  nth_error l i = Some a ->
  Permutation (f a ++ flat_map f (upd l i x)) (f x ++ flat_map f l).
Proof.
  induction l; intros [|i] b x H; cbn in *; try discriminate.
  - injection H as ->.
    rewrite !app_assoc. apply Permutation_app_tail. apply Permutation_app_comm.
  - specialize (IHl i b x H).
    rewrite Permutation_app_swap_app. rewrite IHl. apply Permutation_app_swap_app.
Qed.

Lemma upd_total : forall f l i a x,
  nth_error l i = Some a ->
  (total f (upd l i x) + f a = total f l + f x)%nat.
Proof.
  induction l; intros [|i] b x H; cbn in *; try discriminate.
  - injection H as ->. lia.
  - specialize (IHl i b x H). lia.
Qed.

Lemma del_perm : forall A (l : list A) i a,
  nth_error l i = Some a -> Permutation (a :: del l i) l.
Proof.
  induction l; intros [|i] b H; cbn in *; try discriminate.
  - injection H as ->. reflexivity.
  - specialize (IHl i b H). rewrite <- IHl at 2. apply perm_swap.
Qed.

Lemma del_incl : forall A (l : list A) i a, In a (del l i) -> In a l.
Proof.
  induction l; intros [|i] b H; cbn in *; auto. destruct H; eauto.
Qed.

Lemma flat_map_in_nil : forall A B (f : A -> list B) l,
  (forall x, In x l -> f x = []) -> flat_map f l = [].
Proof.
  induction l; intros H; cbn; [reflexivity|].
  rewrite (H a) by (left; reflexivity). cbn. apply IHl.
  intros x Hx. apply H. right. exact Hx.
Qed.

(** Number of occurrences. *)
Definition cz (l : list Z) (x : Z) : nat := count_occ Z.eq_dec l x.
Definition cn (l : list nat) (x : nat) : nat := count_occ Nat.eq_dec l x.

Lemma cz_app : forall a b x, cz (a ++ b) x = (cz a x + cz b x)%nat.
Proof. intros. apply count_occ_app. Qed.
Lemma cn_app : forall a b x, cn (a ++ b) x = (cn a x + cn b x)%nat.
Proof. intros. apply count_occ_app. Qed.
Lemma cz_cons : forall a b x, cz (a :: b) x = (cz [a] x + cz b x)%nat.
Proof. intros. apply (count_occ_app Z.eq_dec [a] b x). Qed.
Lemma cn_cons : forall a b x, cn (a :: b) x = (cn [a] x + cn b x)%nat.
Proof. intros. apply (count_occ_app Nat.eq_dec [a] b x). Qed.
Lemma cz_nil : forall x, cz [] x = 0%nat.
Proof. reflexivity. Qed.
Lemma cn_nil : forall x, cn [] x = 0%nat.
Proof. reflexivity. Qed.
Lemma cz_one : forall x, cz [x] x = 1%nat.
Proof. intros. unfold cz. cbn. destruct (Z.eq_dec x x); [reflexivity|congruence]. Qed.
Lemma cn_one : forall x, cn [x] x = 1%nat.
Proof. intros. unfold cn. cbn. destruct (Nat.eq_dec x x); [reflexivity|congruence]. Qed.
Lemma cz_le_one : forall a x, (cz [a] x <= 1)%nat.
Proof. intros. unfold cz. cbn. destruct (Z.eq_dec a x); lia. Qed.
Lemma cz_in : forall l x, In x l <-> (1 <= cz l x)%nat.
Proof.
  intros. unfold cz. pose proof (count_occ_In Z.eq_dec l x) as H.
  split; intros Q; [apply H in Q|apply H]; lia.
Qed.
Lemma cn_in : forall l x, In x l <-> (1 <= cn l x)%nat.
Proof.
  intros. unfold cn. pose proof (count_occ_In Nat.eq_dec l x) as H.
  split; intros Q; [apply H in Q|apply H]; lia.
Qed.
Lemma cz_nodup : forall l, NoDup l <-> (forall x, (cz l x <= 1)%nat).
Proof. intros. apply (NoDup_count_occ Z.eq_dec l). Qed.
Lemma cn_nodup : forall l, NoDup l <-> (forall x, (cn l x <= 1)%nat).
Proof. intros. apply (NoDup_count_occ Nat.eq_dec l). Qed.
Lemma cz_perm : forall a b, Permutation a b <-> (forall x, cz a x = cz b x).
Proof. intros. apply (Permutation_count_occ Z.eq_dec a b). Qed.
Lemma cn_perm : forall a b, Permutation a b <-> (forall x, cn a x = cn b x).
Proof. intros. apply (Permutation_count_occ Nat.eq_dec a b). Qed.

Lemma upd_cz : forall (f : pc -> list Z) l i a x z,
  nth_error l i = Some a ->
  (cz (f a) z + cz (flat_map f (upd l i x)) z = cz (f x) z + cz (flat_map f l) z)%nat.
Proof.
  intros f l i a x z H.
  pose proof (proj1 (cz_perm _ _) (upd_flat _ _ f l i a x H) z) as E.
  rewrite !cz_app in E. exact E.
Qed.

Lemma upd_cn : forall (f : pc -> list nat) l i a x z,
  nth_error l i = Some a ->
  (cn (f a) z + cn (flat_map f (upd l i x)) z = cn (f x) z + cn (flat_map f l) z)%nat.
Proof.
  intros f l i a x z H.
  pose proof (proj1 (cn_perm _ _) (upd_flat _ _ f l i a x H) z) as E.
  rewrite !cn_app in E. exact E.
Qed.

Lemma total_app : forall f a b, (total f (a ++ b) = total f a + total f b)%nat.
Proof. induction a; cbn; intros; [reflexivity|]. rewrite IHa. lia. Qed.

(** ** The table *)

Lemma lookup_in : forall id t x, lookup id t = Some x -> In (id, x) t.
Proof.
  unfold lookup. intros id t x H.
  destruct (find (fun e => fst e =? id) t) as [[k y]|] eqn:F; [|discriminate].
  apply find_some in F. cbn in *. destruct F as [F1 F2].
  apply Z.eqb_eq in F2. congruence.
Qed.

Lemma in_lookup : forall id t x,
  NoDup (map fst t) -> In (id, x) t -> lookup id t = Some x.
Proof.
  unfold lookup. induction t as [|[k y] t IH]; cbn; intros x N H; [tauto|].
  inversion N; subst.
  destruct H as [H|H].
  - injection H as -> ->. rewrite Z.eqb_refl. reflexivity.
  - destruct (Z.eqb_spec k id).
    + subst. exfalso. apply H2. change id with (fst (id, x)). now apply in_map.
    + apply IH; assumption.
Qed.

Lemma lookup_none : forall id t, lookup id t = None -> ~ In id (map fst t).
Proof.
  unfold lookup. induction t as [|[k y] t IH]; cbn; intros H; [tauto|].
  destruct (Z.eqb_spec k id); [discriminate|]. intuition.
Qed.

Lemma without_cons : forall id k y t,
  without id ((k, y) :: t) = if k =? id then without id t else (k, y) :: without id t.
Proof. intros. unfold without. cbn. destruct (k =? id); reflexivity. Qed.

Arguments without : simpl never.

Lemma without_absent : forall id t, ~ In id (map fst t) -> without id t = t.
Proof.
  induction t as [|[k y] t IH]; cbn; intros H; [reflexivity|]. rewrite without_cons.
  destruct (Z.eqb_spec k id); [tauto|]. cbn. f_equal. apply IH. tauto.
Qed.

Lemma without_in : forall id t e, In e (without id t) -> In e t /\ fst e <> id.
Proof.
  unfold without. intros id t e H. apply filter_In in H. destruct H as [H1 H2].
  split; [exact H1|]. destruct (Z.eqb_spec (fst e) id); [discriminate|assumption].
Qed.

Lemma without_keep : forall id t e, In e t -> fst e <> id -> In e (without id t).
Proof.
  unfold without. intros. apply filter_In. split; [assumption|].
  destruct (Z.eqb_spec (fst e) id); [contradiction|reflexivity].
Qed.

Lemma without_perm : forall id t x,
  NoDup (map fst t) -> In (id, x) t -> Permutation ((id, x) :: without id t) t.
Proof.
  induction t as [|[k y] t IH]; cbn; intros x N H; [tauto|].
  inversion N; subst. rewrite without_cons.
  destruct H as [H|H].
  - injection H as -> ->. rewrite Z.eqb_refl. cbn.
    rewrite without_absent by assumption. reflexivity.
  - destruct (Z.eqb_spec k id); cbn.
    + subst. exfalso. apply H2. change id with (fst (id, x)). now apply in_map.
    + rewrite <- (IH x) at 2 by assumption. apply perm_swap.
Qed.

Lemma without_release : forall id t,
  NoDup (map fst t) -> map fst (without id t) = release id (map fst t).
Proof.
  induction t as [|[k y] t IH]; cbn; intros N; [reflexivity|].
  inversion N; subst. rewrite without_cons. destruct (Z.eqb_spec k id); cbn.
  - subst. now rewrite without_absent.
  - f_equal. now apply IH.
Qed.

(** ** First group: mutex, ids, slots, log *)

Definition locked (p : pc) : bool :=
  match p with
  | PutClose _ _ _ | PutPool _ _ _ | PutId _ _ _ | PutSpace _ _ _ | PutDel _ _ _ => true
  | _ => false
  end.

(** What a Put in progress is working on. *)
Definition putting (p : pc) : option (Z * (nat * nat)) :=
  match p with
  | PutClose id o g | PutPool id o g | PutId id o g | PutSpace id o g | PutDel id o g =>
      Some (id, (o, g))
  | _ => None
  end.

Record inv1 (s : sys) : Prop := {
  i_lock : forall i p, nth_error (sy_thr s) i = Some p ->
             (locked p = true <-> sy_lock s = Some i);
  i_held : forall i, sy_lock s = Some i -> exists p, nth_error (sy_thr s) i = Some p;
  i_keys : NoDup (map fst (sy_table s));
  i_put : forall i p e, nth_error (sy_thr s) i = Some p -> putting p = Some e ->
             In e (sy_table s);
  i_ids : forall x,
    (cz (sy_ids s) x + cz (flat_map handing (sy_thr s)) x + cz (map fst (sy_table s)) x
     = cz all_ids x + cz (flat_map returning (sy_thr s)) x)%nat;
  i_space : (sy_space s + total taking_slot (sy_thr s) + length (sy_table s)
             = sy_size s + total giving_slot (sy_thr s))%nat;
  i_log : in_progress (sy_log s) = map fst (sy_table s);
  i_size : (length (sy_table s) <= sy_size s)%nat;
  i_range : forall id, In id (map fst (sy_table s)) -> In id all_ids
}.

Lemma all_ids_nodup : NoDup all_ids.
Proof.
  unfold all_ids. apply FinFun.Injective_map_NoDup; [|apply seq_NoDup].
  intros a b H. lia.
Qed.

Lemma all_ids_range : forall id, In id all_ids <-> 1 <= id <= 254.
Proof.
  unfold all_ids. intros id. rewrite in_map_iff. split.
  - intros (n & <- & H). apply in_seq in H. lia.
  - intros H. exists (Z.to_nat id). split; [lia|]. apply in_seq. lia.
Qed.

Lemma unlocked_returning : forall s, inv1 s -> sy_lock s = None ->
  flat_map returning (sy_thr s) = [] /\ total giving_slot (sy_thr s) = 0%nat.
Proof.
  intros s I L.
  assert (forall p, In p (sy_thr s) -> locked p = false) as H.
  { intros p Hp. apply In_nth_error in Hp. destruct Hp as [i Hi].
    pose proof (i_lock s I i p Hi) as E. rewrite L in E.
    destruct (locked p); [|reflexivity]. destruct E as [E _].
    specialize (E eq_refl). discriminate. }
  split.
  - apply flat_map_in_nil. intros p Hp. specialize (H p Hp). destruct p; cbn in *; congruence.
  - clear I L. induction (sy_thr s) as [|p l IH]; cbn; [reflexivity|].
    rewrite IH by (intros q Hq; apply H; right; exact Hq).
    specialize (H p (or_introl eq_refl)). destruct p; cbn in *; congruence.
Qed.

(** When goroutine [i] holds the mutex nobody else is inside Put. *)
Lemma others_returning : forall s i p, inv1 s -> nth_error (sy_thr s) i = Some p ->
  locked p = true ->
  Permutation (flat_map returning (sy_thr s)) (returning p) /\
  total giving_slot (sy_thr s) = giving_slot p.
Proof.
  intros s i p I N L.
  assert (sy_lock s = Some i) as K by (apply (i_lock s I i p N); exact L).
  assert (forall j q, nth_error (upd (sy_thr s) i PIdle) j = Some q -> locked q = false) as H.
  { intros j q Hq. apply upd_inv in Hq. destruct Hq as [[_ ->]|[Hj Hq]]; [reflexivity|].
    pose proof (i_lock s I j q Hq) as E. destruct (locked q); [|reflexivity].
    destruct E as [E _]. specialize (E eq_refl). congruence. }
  assert (flat_map returning (upd (sy_thr s) i PIdle) = []) as R.
  { apply flat_map_in_nil. intros q Hq. apply In_nth_error in Hq. destruct Hq as [j Hj].
    specialize (H j q Hj). destruct q; cbn in *; congruence. }
  assert (total giving_slot (upd (sy_thr s) i PIdle) = 0%nat) as G.
  { clear R. revert H. generalize (upd (sy_thr s) i PIdle).
    induction l as [|q l IH]; intros H; cbn; [reflexivity|].
    rewrite IH by (intros j r Hr; apply (H (S j) r Hr)).
    specialize (H O q eq_refl). destruct q; cbn in *; congruence. }
  split.
  - pose proof (upd_flat _ _ returning (sy_thr s) i p PIdle N) as E.
    rewrite R, app_nil_r in E. cbn in E. symmetry. exact E.
  - pose proof (upd_total giving_slot (sy_thr s) i p PIdle N) as E. rewrite G in E.
    cbn in E. lia.
Qed.

Lemma init_inv1 : forall n, inv1 (init n).
Proof.
  intros n. constructor; cbn [init sy_thr sy_table sy_lock sy_ids sy_space sy_size sy_log].
  - intros [|i] p H; discriminate.
  - discriminate.
  - constructor.
  - intros [|i] p e H; discriminate.
  - intros x. cbn [flat_map map]. rewrite !cz_nil. fold all_ids. lia.
  - cbn. lia.
  - reflexivity.
  - cbn. lia.
  - intros id [].
Qed.

(** Case analysis on one step. *)
Ltac exec_cases H :=
  unfold exec, step_of in H;
  repeat match type of H with
         | (if ?b then _ else _) = Some _ => destruct b eqn:?; try discriminate H
         | match ?x with _ => _ end = Some _ => destruct x eqn:?; try discriminate H
         end;
  injection H as <-;
  try match goal with
      | N1 : nth_error (sy_thr ?s0) _ = Some (SendWait _ _ (Some _) _),
        N2 : nth_error (sy_thr ?s0) _ = Some (RecvWait _ (Some _) _) |- _ =>
          is_var s0; rename N2 into Hrcv; rename N1 into Hth
      end;
  try match goal with N : nth_error (sy_thr ?s0) _ = Some _ |- _ =>
        is_var s0; rename N into Hth end;
  try match goal with N : nth_error (sy_pool _) _ = Some _ |- _ => rename N into Hpool end;
  try match goal with N : sy_lock _ = _ |- _ => rename N into Hlk end;
  try match goal with N : lookup _ _ = Some _ |- _ => rename N into Hlook end.

Ltac fields :=
  cbn [sy_size sy_lock sy_table sy_pool sy_ids sy_space sy_objs sy_chans sy_thr sy_gen
       sy_log sy_crash set_pc set_lock set_table set_pool set_ids set_space set_objs
       set_chans set_gen set_thr note crash] in *.


Lemma cz_returning_le : forall s x, inv1 s -> (cz (flat_map returning (sy_thr s)) x <= 1)%nat.
Proof.
  intros s x I.
  destruct (sy_lock s) as [i|] eqn:L.
  - destruct (nth_error (sy_thr s) i) as [p|] eqn:N.
    + assert (locked p = true) as K by (apply (i_lock s I i p N); exact L).
      destruct (others_returning s i p I N K) as [E _].
      rewrite (proj1 (cz_perm _ _) E x). destruct p; cbn [returning]; rewrite ?cz_nil;
        try lia; apply cz_le_one.
    + assert (flat_map returning (sy_thr s) = []) as ->.
      { apply flat_map_in_nil. intros q Hq. apply In_nth_error in Hq. destruct Hq as [j Hj].
        pose proof (i_lock s I j q Hj) as E.
        destruct q; cbn in *; try reflexivity;
          destruct E as [E _]; specialize (E eq_refl); congruence. }
      rewrite cz_nil. lia.
  - destruct (unlocked_returning s I L) as [-> _]. rewrite cz_nil. lia.
Qed.

(** An id being handed out is not in the table when the mutex is free. *)
Lemma handing_absent : forall s i p id, inv1 s -> sy_lock s = None ->
  nth_error (sy_thr s) i = Some p -> handing p = [id] -> ~ In id (map fst (sy_table s)).
Proof.
  intros s i p id I L N P H.
  destruct (unlocked_returning s I L) as [R _].
  pose proof (i_ids s I id) as E. rewrite R, cz_nil in E.
  pose proof (upd_cz handing (sy_thr s) i p PIdle id N) as U.
  rewrite P, cz_one in U. cbn [handing] in U. rewrite cz_nil in U.
  apply cz_in in H.
  pose proof (proj1 (cz_nodup _) all_ids_nodup id). lia.
Qed.

Lemma lock_keep : forall thr i a p' L,
  (forall j p, nth_error thr j = Some p -> (locked p = true <-> L = Some j)) ->
  nth_error thr i = Some a -> locked a = locked p' ->
  forall j p, nth_error (upd thr i p') j = Some p -> (locked p = true <-> L = Some j).
Proof.
  intros thr i a p' L H N E j p K. apply upd_inv in K.
  destruct K as [[-> ->]|[_ K]]; [rewrite <- E|]; apply H; assumption.
Qed.


Lemma spawn_inv : forall (l : list pc) i p, nth_error (l ++ [PIdle]) i = Some p ->
  nth_error l i = Some p \/ (i = length l /\ p = PIdle).
Proof.
  intros l i p K. destruct (Nat.lt_ge_cases i (length l)) as [Q|Q].
  - rewrite nth_error_app1 in K by assumption. left. exact K.
  - rewrite nth_error_app2 in K by assumption. right.
    destruct (i - length l)%nat as [|[|]] eqn:M; cbn in K; try discriminate.
    split; [lia|congruence].
Qed.

Lemma deliver_other : forall (l : list pc) i j a b,
  nth_error l i = Some a -> nth_error l j = Some b -> a <> b ->
  nth_error (upd l i PIdle) j = Some b.
Proof. intros. rewrite upd_other; [assumption|]. intros ->. congruence. Qed.

Lemma exec_lock : forall s a s', inv1 s -> exec s a = Some s' ->
  forall i p, nth_error (sy_thr s') i = Some p -> (locked p = true <-> sy_lock s' = Some i).
Proof.
  intros s a s' I H.
  exec_cases H; pose proof (i_lock s I) as IL; fields; try exact IL;
    try (eapply lock_keep; [exact IL|eassumption|reflexivity]).
  - (* spawn *)
    intros i p K. apply spawn_inv in K. destruct K as [K|[-> ->]]; [apply IL; exact K|].
    split; [discriminate|]. intros L.
    destruct (i_held s I _ L) as [q Hq].
    assert (length (sy_thr s) < length (sy_thr s))%nat by (apply nth_error_Some; congruence). lia.
  - (* call *) eapply lock_keep; [exact IL|eassumption|destruct o; reflexivity].
  - (* Put takes the mutex *)
    intros k p1 K. apply upd_inv in K. destruct K as [[-> ->]|[D K]].
    + split; reflexivity.
    + pose proof (IL _ _ K) as E. split; intros Q.
      * apply E in Q. congruence.
      * congruence.
  - (* Put releases it *)
    intros k p1 K. apply upd_inv in K. destruct K as [[-> ->]|[D K]].
    + split; discriminate.
    + pose proof (IL _ _ K) as E. pose proof (IL _ _ Hth) as E2.
      assert (sy_lock s = Some i) as E3 by (apply E2; reflexivity).
      split; [|discriminate]. intros Q. apply E in Q. congruence.
  - (* delivery *)
    eapply lock_keep; [|eapply deliver_other; [eassumption|eassumption|discriminate]|reflexivity].
    eapply lock_keep; [exact IL|eassumption|reflexivity].
Qed.

Lemma held_keep : forall (thr : list pc) i p' (L : option nat),
  (forall j, L = Some j -> exists p, nth_error thr j = Some p) ->
  forall j, L = Some j -> exists p, nth_error (upd thr i p') j = Some p.
Proof.
  intros thr i p' L H j E. destruct (H j E) as [p Hp].
  destruct (nth_error (upd thr i p') j) eqn:N; [eauto|].
  apply nth_error_None in N. rewrite upd_length in N.
  assert (j < length thr)%nat by (apply nth_error_Some; congruence). lia.
Qed.

Lemma exec_held : forall s a s', inv1 s -> exec s a = Some s' ->
  forall i, sy_lock s' = Some i -> exists p, nth_error (sy_thr s') i = Some p.
Proof.
  intros s a s' I H.
  exec_cases H; pose proof (i_held s I) as IL; fields; try exact IL;
    repeat apply held_keep; try exact IL.
  - intros i E. destruct (IL i E) as [p Hp]. exists p.
    rewrite nth_error_app1; [exact Hp|]. apply nth_error_Some. congruence.
  - intros j E. injection E as <-. eauto.
  - discriminate.
Qed.

Lemma exec_keys : forall s a s', inv1 s -> exec s a = Some s' ->
  NoDup (map fst (sy_table s')).
Proof.
  intros s a s' I H.
  exec_cases H; pose proof (i_keys s I) as IK; fields; try exact IK.
  - (* ID *)
    assert (~ In id (map fst (sy_table s))) as A
      by (eapply handing_absent; [eassumption|assumption|eassumption|reflexivity]).
    rewrite without_absent by assumption. cbn. constructor; assumption.
  - (* Put *)
    assert (In (id, (o, g)) (sy_table s)) as P by (apply (i_put s I _ _ _ Hth); reflexivity).
    pose proof (Permutation_map fst (without_perm _ _ _ IK P)) as Q.
    apply Permutation_sym in Q. apply (Permutation_NoDup Q) in IK.
    cbn in IK. now inversion IK.
Qed.

Lemma exec_put : forall s a s', inv1 s -> exec s a = Some s' ->
  forall i p e, nth_error (sy_thr s') i = Some p -> putting p = Some e -> In e (sy_table s').
Proof.
  intros s a s' I H.
  exec_cases H; pose proof (i_put s I) as IP; fields; try exact IP;
    intros k9 p9 e9 K E9.
  all: try (apply spawn_inv in K; destruct K as [K|[-> ->]]; [eauto|discriminate]).
  all: try (apply upd_inv in K; destruct K as [[-> ->]|[D K]];
            [try discriminate; try (eapply IP; [eassumption|assumption])|try solve [eauto]]).
  - destruct o; discriminate.
  - (* ID *)
    right. rewrite without_absent; [eauto|].
    eapply (handing_absent s i); [eassumption|assumption|eassumption|reflexivity].
  - (* Put begins *) cbn in E9. injection E9 as <-. apply lookup_in. assumption.
  - (* Put ends: nobody else is inside *)
    exfalso. apply D.
    assert (sy_lock s = Some i) as E1
      by (apply (i_lock s I i _ Hth); reflexivity).
    assert (sy_lock s = Some k9) as E2.
    { apply (i_lock s I k9 _ K). destruct p9; cbn in *; congruence. }
    congruence.
  - (* delivery *)
    apply upd_inv in K. destruct K as [[-> ->]|[D2 K]]; [discriminate|]. eauto.
Qed.

Lemma cz_filter_len : forall id t, (length (without id t) <= length t)%nat.
Proof.
  induction t as [|[k y] t IH]; [reflexivity|]. rewrite without_cons.
  destruct (k =? id); cbn; lia.
Qed.

Lemma exec_ids : forall s a s', inv1 s -> exec s a = Some s' -> forall x,
    (cz (sy_ids s') x + cz (flat_map handing (sy_thr s')) x + cz (map fst (sy_table s')) x
     = cz all_ids x + cz (flat_map returning (sy_thr s')) x)%nat.
Proof.
  intros s a s' I H x9.
  exec_cases H; pose proof (i_ids s I x9) as II; fields;
    try exact II;
    try match goal with
    | N : nth_error (sy_thr s) ?i = Some ?p |- context [upd (sy_thr s) ?i ?q] =>
      let U1 := fresh in let U2 := fresh in
      pose proof (upd_cz handing (sy_thr s) i p q x9 N) as U1;
      pose proof (upd_cz returning (sy_thr s) i p q x9 N) as U2;
      cbn [handing returning] in U1, U2; rewrite ?cz_nil in U1, U2
    end; try lia.
  - rewrite !flat_map_app, !cz_app. cbn [flat_map handing returning app].
    rewrite !cz_nil. lia.
  - destruct o; cbn [entry_of handing returning] in *; rewrite !cz_nil in *; lia.
  - rewrite Heql in II. rewrite cz_cons in II. lia.
  - rewrite without_absent
      by (eapply (handing_absent s i); [eassumption|assumption|eassumption|reflexivity]).
    cbn [map fst]. rewrite cz_cons. lia.
  - rewrite cz_app. lia.
  - assert (In (id, (o, g)) (sy_table s)) as P by (apply (i_put s I _ _ _ Hth); reflexivity).
    pose proof (Permutation_map fst (without_perm _ _ _ (i_keys s I) P)) as Q.
    pose proof (proj1 (cz_perm _ _) Q x9) as Q2. cbn [map fst] in Q2. rewrite cz_cons in Q2.
    lia.
  - assert (nth_error (upd (sy_thr s) i PIdle) j = Some (RecvWait id0 (Some n0) g0)) as N2
      by (eapply deliver_other; [eassumption|eassumption|discriminate]).
    pose proof (upd_cz handing _ j _ PIdle x9 N2) as U1.
    pose proof (upd_cz returning _ j _ PIdle x9 N2) as U2.
    pose proof (upd_cz handing _ i _ PIdle x9 Hth) as U3.
    pose proof (upd_cz returning _ i _ PIdle x9 Hth) as U4.
    cbn [handing returning] in U1, U2, U3, U4. rewrite ?cz_nil in *. lia.
Qed.

Lemma exec_space : forall s a s', inv1 s -> exec s a = Some s' ->
  (sy_space s' + total taking_slot (sy_thr s') + length (sy_table s')
             = sy_size s' + total giving_slot (sy_thr s'))%nat.
Proof.
  intros s a s' I H.
  exec_cases H; pose proof (i_space s I) as II; fields;
    try exact II;
    try match goal with
    | N : nth_error (sy_thr s) ?i = Some ?p |- context [upd (sy_thr s) ?i ?q] =>
      let U1 := fresh in let U2 := fresh in
      pose proof (upd_total taking_slot (sy_thr s) i p q N) as U1;
      pose proof (upd_total giving_slot (sy_thr s) i p q N) as U2;
      cbn [taking_slot giving_slot] in U1, U2
    end; try lia.
  - rewrite !total_app. cbn. lia.
  - destruct o; cbn [entry_of taking_slot giving_slot] in *; lia.
  - rewrite without_absent
      by (eapply (handing_absent s i); [eassumption|assumption|eassumption|reflexivity]).
    cbn [length]. lia.
  - assert (In (id, (o, g)) (sy_table s)) as P by (apply (i_put s I _ _ _ Hth); reflexivity).
    pose proof (Permutation_length (without_perm _ _ _ (i_keys s I) P)) as Q. cbn [length] in Q.
    lia.
  - assert (nth_error (upd (sy_thr s) i PIdle) j = Some (RecvWait id0 (Some n0) g0)) as N2
      by (eapply deliver_other; [eassumption|eassumption|discriminate]).
    pose proof (upd_total taking_slot _ j _ PIdle N2) as U1.
    pose proof (upd_total giving_slot _ j _ PIdle N2) as U2.
    pose proof (upd_total taking_slot _ i _ PIdle Hth) as U3.
    pose proof (upd_total giving_slot _ i _ PIdle Hth) as U4.
    cbn [taking_slot giving_slot] in U1, U2, U3, U4. lia.
Qed.

Lemma exec_log : forall s a s', inv1 s -> exec s a = Some s' ->
  in_progress (sy_log s') = map fst (sy_table s').
Proof.
  intros s a s' I H.
  exec_cases H; pose proof (i_log s I) as II; fields; cbn [in_progress]; try exact II.
  - rewrite without_absent
      by (eapply (handing_absent s i); [eassumption|assumption|eassumption|reflexivity]).
    cbn [map fst]. now f_equal.
  - rewrite II. symmetry. apply without_release. apply (i_keys s I).
Qed.

Lemma exec_size : forall s a s', inv1 s -> exec s a = Some s' ->
  (length (sy_table s') <= sy_size s')%nat /\ sy_size s' = sy_size s.
Proof.
  intros s a s' I H.
  exec_cases H; pose proof (i_size s I) as II; fields; (split; [|reflexivity]); try exact II.
  - rewrite without_absent
      by (eapply (handing_absent s i); [eassumption|assumption|eassumption|reflexivity]).
    cbn [length].
    destruct (unlocked_returning s I ltac:(assumption)) as [_ G].
    pose proof (i_space s I) as S. rewrite G in S.
    pose proof (upd_total taking_slot (sy_thr s) i _ PIdle Hth) as U. cbn [taking_slot] in U.
    lia.
  - pose proof (cz_filter_len id (sy_table s)). lia.
Qed.

Lemma exec_range : forall s a s', inv1 s -> exec s a = Some s' ->
  forall id, In id (map fst (sy_table s')) -> In id all_ids.
Proof.
  intros s a s' I H id9.
  exec_cases H; pose proof (i_range s I id9) as II; fields; try exact II.
  - intros [<-|Q].
    + cbn [fst]. apply cz_in. pose proof (i_ids s I id) as E.
      destruct (unlocked_returning s I ltac:(assumption)) as [R _]. rewrite R, cz_nil in E.
      pose proof (upd_cz handing (sy_thr s) i _ PIdle id Hth) as U.
      cbn [handing] in U. rewrite cz_one, cz_nil in U. lia.
    + apply II. apply in_map_iff in Q. destruct Q as (e & <- & Q). apply without_in in Q.
      apply in_map. apply Q.
  - intros Q. apply II. apply in_map_iff in Q. destruct Q as (e & <- & Q).
    apply without_in in Q. apply in_map. apply Q.
Qed.

Lemma exec_inv1 : forall s a s', inv1 s -> exec s a = Some s' -> inv1 s'.
Proof.
  intros s a s' I H. constructor.
  - eapply exec_lock; eassumption.
  - eapply exec_held; eassumption.
  - eapply exec_keys; eassumption.
  - eapply exec_put; eassumption.
  - eapply exec_ids; eassumption.
  - eapply exec_space; eassumption.
  - eapply exec_log; eassumption.
  - eapply exec_size; eassumption.
  - eapply exec_range; eassumption.
Qed.

(** ** Second group: state objects and channels *)

(** State objects owned by a call of ID in progress. *)
Definition own_objs (p : pc) : list nat :=
  match p with IDMake _ o | IDLock _ o => [o] | _ => [] end.

(** State objects given to the pool by a Put that has not removed its entry yet. *)
Definition pooled_objs (p : pc) : list nat :=
  match p with PutId _ o _ | PutSpace _ o _ | PutDel _ o _ => [o] | _ => [] end.

Definition tab_objs (t : list (Z * (nat * nat))) : list nat := map (fun e => fst (snd e)) t.

(** The transaction a Put in progress has closed already. *)
Definition closing (p : pc) : option (Z * (nat * nat)) :=
  match p with
  | PutPool id o g | PutId id o g | PutSpace id o g | PutDel id o g => Some (id, (o, g))
  | _ => None
  end.

Definition was_closed (s : sys) (id : Z) (g : nat) : Prop :=
  exists i, In (EClosed i id g) (sy_log s).

Definition is_open (s : sys) (o : nat) : Prop :=
  exists c, data_of s o = Some c /\ closed s c = false.

Record inv2 (s : sys) : Prop := {
  j_objs : forall o,
    (cn (sy_pool s) o + cn (flat_map own_objs (sy_thr s)) o + cn (tab_objs (sy_table s)) o
     <= 1 + cn (flat_map pooled_objs (sy_thr s)) o)%nat;
  j_tab : NoDup (tab_objs (sy_table s));
  j_range : forall o, (1 <= cn (sy_pool s) o + cn (flat_map own_objs (sy_thr s)) o
                       + cn (tab_objs (sy_table s)) o)%nat -> (o < length (sy_objs s))%nat;
  j_chan : forall o c, data_of s o = Some c -> (c < length (sy_chans s))%nat;
  j_inj : forall o1 o2 c, data_of s o1 = Some c -> data_of s o2 = Some c -> o1 = o2;
  j_close : forall i p id o g, nth_error (sy_thr s) i = Some p ->
    closing p = Some (id, (o, g)) -> was_closed s id g;
  j_open : forall id o g, In (id, (o, g)) (sy_table s) ->
    is_open s o \/ exists i p, nth_error (sy_thr s) i = Some p /\ closing p = Some (id, (o, g));
  j_fresh : forall i id o, nth_error (sy_thr s) i = Some (IDLock id o) -> is_open s o
}.

Lemma init_inv2 : forall n, inv2 (init n).
Proof.
  intros n. constructor; cbn; try tauto.
  - intros o. lia.
  - constructor.
  - intros o. lia.
  - intros o c. unfold data_of. cbn. destruct o; discriminate.
  - intros o o2 c. unfold data_of. cbn. destruct o; discriminate.
  - intros [|i]; discriminate.
  - intros [|i]; discriminate.
Qed.

Lemma unlocked_pooled : forall s, inv1 s -> sy_lock s = None ->
  flat_map pooled_objs (sy_thr s) = [].
Proof.
  intros s I L. apply flat_map_in_nil. intros p Hp.
  apply In_nth_error in Hp. destruct Hp as [i Hi].
  pose proof (i_lock s I i p Hi) as E. rewrite L in E.
  destruct p; cbn in *; try reflexivity;
    destruct E as [E _]; specialize (E eq_refl); discriminate.
Qed.

Lemma others_pooled : forall s i p, inv1 s -> nth_error (sy_thr s) i = Some p ->
  locked p = true ->
  Permutation (flat_map pooled_objs (sy_thr s)) (pooled_objs p).
Proof.
  intros s i p I N L.
  assert (sy_lock s = Some i) as K by (apply (i_lock s I i p N); exact L).
  assert (flat_map pooled_objs (upd (sy_thr s) i PIdle) = []) as R.
  { apply flat_map_in_nil. intros q Hq. apply In_nth_error in Hq. destruct Hq as [j Hj].
    apply upd_inv in Hj. destruct Hj as [[_ ->]|[Hj Hq]]; [reflexivity|].
    pose proof (i_lock s I j q Hq) as E.
    destruct q; cbn in *; try reflexivity;
      destruct E as [E _]; specialize (E eq_refl); congruence. }
  pose proof (upd_flat _ _ pooled_objs (sy_thr s) i p PIdle N) as E.
  rewrite R, app_nil_r in E. cbn in E. symmetry. exact E.
Qed.

Lemma cn_del_le : forall l k o, (cn (del l k) o <= cn l o)%nat.
Proof.
  intros l k o. destruct (nth_error l k) as [a|] eqn:N.
  - pose proof (proj1 (cn_perm _ _) (del_perm _ _ _ _ N) o) as E. rewrite cn_cons in E. lia.
  - assert (del l k = l) as ->; [|lia]. revert k N.
    induction l; intros [|k] N; cbn in *; try discriminate; try reflexivity.
    f_equal. auto.
Qed.

Lemma cn_tab_without : forall id o g t x, NoDup (map fst t) -> In (id, (o, g)) t ->
  cn (tab_objs t) x = (cn [o] x + cn (tab_objs (without id t)) x)%nat.
Proof.
  intros id o g t x N P.
  pose proof (Permutation_map (fun e : Z * (nat * nat) => fst (snd e))
                (without_perm _ _ _ N P)) as Q.
  pose proof (proj1 (cn_perm _ _) Q x) as Q2. cbn [map fst snd] in Q2. rewrite cn_cons in Q2.
  unfold tab_objs. lia.
Qed.

Ltac cn_facts s x9 :=
  try match goal with
    | N : nth_error (sy_thr s) ?i = Some ?p |- context [upd (sy_thr s) ?i ?q] =>
      let U1 := fresh "U" in let U2 := fresh "U" in
      pose proof (upd_cn own_objs (sy_thr s) i p q x9 N) as U1;
      pose proof (upd_cn pooled_objs (sy_thr s) i p q x9 N) as U2;
      cbn [own_objs pooled_objs] in U1, U2; rewrite ?cn_nil in U1, U2
    end.

Lemma cn_one_other : forall a x, a <> x -> cn [a] x = 0%nat.
Proof. intros. unfold cn. cbn. destruct (Nat.eq_dec a x); [contradiction|reflexivity]. Qed.

Lemma exec_objs : forall s a s', inv1 s -> inv2 s -> exec s a = Some s' -> forall o,
    (cn (sy_pool s') o + cn (flat_map own_objs (sy_thr s')) o + cn (tab_objs (sy_table s')) o
     <= 1 + cn (flat_map pooled_objs (sy_thr s')) o)%nat /\
    ((1 <= cn (sy_pool s') o + cn (flat_map own_objs (sy_thr s')) o
       + cn (tab_objs (sy_table s')) o)%nat -> (o < length (sy_objs s'))%nat).
Proof.
  intros s a s' I J H x9.
  exec_cases H; pose proof (j_objs s J x9) as JO; pose proof (j_range s J x9) as JR; fields;
    try (split; [exact JO|exact JR]); cn_facts s x9; try lia.
  - rewrite !flat_map_app, !cn_app. cbn [flat_map own_objs pooled_objs app].
    rewrite !cn_nil. lia.
  - destruct o; cbn [entry_of own_objs pooled_objs] in *; rewrite !cn_nil in *; lia.
  - rewrite upd_length. lia.
  - rewrite without_absent
      by (eapply (handing_absent s i); [eassumption|assumption|eassumption|reflexivity]).
    cbn [tab_objs map fst snd]. fold (tab_objs (sy_table s)). rewrite cn_cons. lia.
  - rewrite cn_cons. split; [lia|]. intros Q.
    destruct (Nat.eq_dec o x9) as [->|D]; [|rewrite cn_one_other in Q by assumption; apply JR; lia].
    apply JR.
    assert (In (id, (x9, g)) (sy_table s)) as P by (apply (i_put s I _ _ _ Hth); reflexivity).
    rewrite (cn_tab_without _ _ _ _ x9 (i_keys s I) P), cn_one. lia.
  - assert (In (id, (o, g)) (sy_table s)) as P by (apply (i_put s I _ _ _ Hth); reflexivity).
    pose proof (cn_tab_without _ _ _ _ x9 (i_keys s I) P). lia.
  - assert (cn (sy_pool s) x9 = cn [n0] x9 + cn (del (sy_pool s) n) x9)%nat as E.
    { pose proof (proj1 (cn_perm _ _) (del_perm _ _ _ _ Hpool) x9) as E.
      rewrite cn_cons in E. lia. }
    lia.
  - rewrite app_length. cbn [length].
    destruct (Nat.eq_dec (length (sy_objs s)) x9) as [<-|D].
    + rewrite cn_one in *. lia.
    + rewrite cn_one_other in * by assumption. lia.
  - assert (nth_error (upd (sy_thr s) i PIdle) j = Some (RecvWait id0 (Some n0) g0)) as N2
      by (eapply deliver_other; [eassumption|eassumption|discriminate]).
    pose proof (upd_cn own_objs _ j _ PIdle x9 N2) as V1.
    pose proof (upd_cn pooled_objs _ j _ PIdle x9 N2) as V2.
    pose proof (upd_cn own_objs _ i _ PIdle x9 Hth) as V3.
    pose proof (upd_cn pooled_objs _ i _ PIdle x9 Hth) as V4.
    cbn [own_objs pooled_objs] in V1, V2, V3, V4. rewrite ?cn_nil in *. lia.
  - pose proof (cn_del_le (sy_pool s) k x9). lia.
Qed.

Lemma exec_tab : forall s a s', inv1 s -> inv2 s -> exec s a = Some s' ->
  NoDup (tab_objs (sy_table s')).
Proof.
  intros s a s' I J H.
  exec_cases H; pose proof (j_tab s J) as JT; fields; try exact JT.
  - rewrite without_absent
      by (eapply (handing_absent s i); [eassumption|assumption|eassumption|reflexivity]).
    cbn. constructor; [|exact JT].
    fold (tab_objs (sy_table s)). rewrite cn_in. pose proof (j_objs s J o) as JO.
    rewrite (unlocked_pooled s I) in JO by assumption. rewrite cn_nil in JO.
    pose proof (upd_cn own_objs (sy_thr s) i _ PIdle o Hth) as U.
    cbn [own_objs] in U. rewrite cn_one, cn_nil in U. lia.
  - assert (In (id, (o, g)) (sy_table s)) as P by (apply (i_put s I _ _ _ Hth); reflexivity).
    apply cn_nodup. intros x. apply (cn_nodup (tab_objs (sy_table s))) with (x := x) in JT.
    pose proof (cn_tab_without _ _ _ _ x (i_keys s I) P). lia.
Qed.

(** Channels. *)
Lemma data_set : forall (objs : list (option nat)) o c o',
  match nth_error (upd objs o (Some c)) o' with Some d => d | None => None end =
  if Nat.eqb o o' then match nth_error objs o with Some _ => Some c | None => None end
  else match nth_error objs o' with Some d => d | None => None end.
Proof.
  intros objs o c o'. destruct (Nat.eqb_spec o o') as [<-|D].
  - destruct (nth_error objs o) eqn:N.
    + now rewrite (upd_same _ _ _ _ _ N).
    + assert (nth_error (upd objs o (Some c)) o = None) as ->; [|reflexivity].
      apply nth_error_None. rewrite upd_length. now apply nth_error_None.
  - now rewrite upd_other.
Qed.

Lemma nth_upd_true : forall l c d, nth d (upd l c true) false = if Nat.eqb c d then
  (if Nat.ltb c (length l) then true else false) else nth d l false.
Proof.
  induction l as [|b l IH]; intros [|c] [|d]; cbn; try reflexivity.
  - destruct (Nat.eqb c d); reflexivity.
  - rewrite IH. reflexivity.
Qed.

Lemma data_new : forall (objs : list (option nat)) o,
  match nth_error (objs ++ [None]) o with Some d => d | None => None end =
  match nth_error objs o with Some d => d | None => None end.
Proof.
  intros objs o. destruct (Nat.lt_ge_cases o (length objs)).
  - now rewrite nth_error_app1.
  - rewrite nth_error_app2 by assumption.
    assert (nth_error objs o = None) as -> by now apply nth_error_None.
    destruct (o - length objs)%nat as [|[|]]; reflexivity.
Qed.

Lemma exec_chan : forall s a s', inv1 s -> inv2 s -> exec s a = Some s' ->
  (forall o c, data_of s' o = Some c -> (c < length (sy_chans s'))%nat) /\
  (forall o1 o2 c, data_of s' o1 = Some c -> data_of s' o2 = Some c -> o1 = o2).
Proof.
  intros s a s' I J H.
  exec_cases H; pose proof (j_chan s J) as JC; pose proof (j_inj s J) as JI;
    try (split; [exact JC|exact JI]).
  - unfold data_of in *; fields. split.
    + intros o1 c1. rewrite data_set, app_length. cbn [length].
      destruct (Nat.eqb_spec o o1).
      * destruct (nth_error (sy_objs s) o); [|discriminate]. intros [= <-]. lia.
      * intros Q. apply JC in Q. lia.
    + intros o1 o2 c1. rewrite !data_set.
      destruct (Nat.eqb_spec o o1), (Nat.eqb_spec o o2); try congruence.
      * destruct (nth_error (sy_objs s) o); [|discriminate]. intros [= <-] Q.
        apply JC in Q. lia.
      * destruct (nth_error (sy_objs s) o); [|discriminate]. intros Q [= <-].
        apply JC in Q. lia.
      * apply JI.
  - (* close *)
    unfold data_of in *; fields. split; [|exact JI]. intros o1 c1 Q. rewrite upd_length. eauto.
  - unfold data_of in *; fields. split; intros *; rewrite !data_new; eauto.
Qed.

Lemma was_closed_mono : forall s a s' id g, exec s a = Some s' ->
  was_closed s id g -> was_closed s' id g.
Proof.
  intros s a s' id9 g9 H [i9 W]. exists i9.
  exec_cases H; fields; try exact W; right; exact W.
Qed.

Lemma exec_close : forall s a s', inv1 s -> inv2 s -> exec s a = Some s' ->
  forall i p id o g, nth_error (sy_thr s') i = Some p ->
    closing p = Some (id, (o, g)) -> was_closed s' id g.
Proof.
  intros s a s' I J H i9 p9 id9 o9 g9 N9 C9.
  assert (nth_error (sy_thr s) i9 = Some p9 -> was_closed s' id9 g9) as Keep.
  { intros N. eapply was_closed_mono; [eassumption|]. eapply j_close; eassumption. }
  assert (forall p, nth_error (sy_thr s) i9 = Some p -> closing p = Some (id9, (o9, g9)) ->
                    was_closed s' id9 g9) as Move.
  { intros p N C. eapply was_closed_mono; [eassumption|]. eapply j_close; eassumption. }
  exec_cases H; fields; try (apply Keep; exact N9);
    try (apply upd_inv in N9; destruct N9 as [[-> ->]|[D N9]];
         [try discriminate C9; try (eapply Move; [eassumption|exact C9])
         |try (apply Keep; exact N9)]).
  - apply spawn_inv in N9. destruct N9 as [N9|[-> ->]]; [auto|discriminate].
  - destruct o; discriminate.
  - cbn in C9. injection C9 as <- <- <-. exists i. left. reflexivity.
  - apply upd_inv in N9. destruct N9 as [[-> ->]|[D2 N9]]; [discriminate|auto].
Qed.

Lemma own_count : forall s i p o, nth_error (sy_thr s) i = Some p -> In o (own_objs p) ->
  (1 <= cn (flat_map own_objs (sy_thr s)) o)%nat.
Proof.
  intros s i p o N P. apply cn_in. apply in_flat_map. exists p. split; [|exact P].
  eapply nth_error_In; eassumption.
Qed.

Lemma tab_count : forall s id o g, In (id, (o, g)) (sy_table s) ->
  (1 <= cn (tab_objs (sy_table s)) o)%nat.
Proof.
  intros s id o g P. apply cn_in. unfold tab_objs.
  change o with ((fun e : Z * (nat * nat) => fst (snd e)) (id, (o, g))). now apply in_map.
Qed.

Lemma tab_inj : forall s e1 e2, NoDup (tab_objs (sy_table s)) ->
  In e1 (sy_table s) -> In e2 (sy_table s) -> fst (snd e1) = fst (snd e2) -> e1 = e2.
Proof.
  intros s e1 e2. unfold tab_objs. induction (sy_table s) as [|e t IH]; cbn; [tauto|].
  intros N H1 H2 E. inversion N; subst.
  destruct H1 as [->|H1], H2 as [->|H2]; auto.
  - exfalso. apply H3. rewrite E. now apply in_map with (f := fun x => fst (snd x)).
  - exfalso. apply H3. rewrite <- E. now apply in_map with (f := fun x => fst (snd x)).
Qed.

(** An object that is both in the table and owned by an ID call is being put. *)
Lemma shared_closing : forall s id o g, inv1 s -> inv2 s ->
  In (id, (o, g)) (sy_table s) -> (1 <= cn (flat_map own_objs (sy_thr s)) o)%nat ->
  exists i p, nth_error (sy_thr s) i = Some p /\ closing p = Some (id, (o, g)).
Proof.
  intros s id o g I J T W.
  pose proof (j_objs s J o) as JO. pose proof (tab_count s id o g T) as TC.
  assert (1 <= cn (flat_map pooled_objs (sy_thr s)) o)%nat as P by lia.
  apply cn_in in P. apply in_flat_map in P. destruct P as (p & Hp & Ho).
  apply In_nth_error in Hp. destruct Hp as [i Hi]. exists i, p. split; [exact Hi|].
  assert (exists id' g', closing p = Some (id', (o, g')) /\ putting p = Some (id', (o, g')))
    as (id' & g' & C & P).
  { destruct p; cbn in Ho; try tauto; destruct Ho as [->|[]];
      do 2 eexists; split; reflexivity. }
  pose proof (i_put s I i p _ Hi P) as T2.
  rewrite C. f_equal. eapply tab_inj; [apply (j_tab s J)|assumption|assumption|reflexivity].
Qed.

Lemma closing_keep : forall thr i a p' e,
  nth_error thr i = Some a -> closing a = None \/ closing a = closing p' ->
  (exists j p, nth_error thr j = Some p /\ closing p = Some e) ->
  exists j p, nth_error (upd thr i p') j = Some p /\ closing p = Some e.
Proof.
  intros thr i a p' e N C (j & p & Nj & Cj).
  destruct (Nat.eq_dec i j) as [<-|D].
  - exists i, p'. split; [eapply upd_same; eassumption|].
    replace a with p in C by congruence. destruct C as [C|C]; congruence.
  - exists j, p. rewrite upd_other by assumption. auto.
Qed.

Lemma open_set : forall s o c o', o <> o' ->
  forall ch, data_of s o' = Some ch -> closed s ch = false -> 
  (ch < length (sy_chans s))%nat ->
  match nth_error (upd (sy_objs s) o (Some c)) o' with Some d => d | None => None end = Some ch /\
  nth ch (sy_chans s ++ [false]) false = false.
Proof.
  intros s o c o' D ch E C L. rewrite data_set.
  destruct (Nat.eqb_spec o o'); [contradiction|]. split; [exact E|].
  rewrite app_nth1 by assumption. exact C.
Qed.

Lemma exec_open : forall s a s', inv1 s -> inv2 s -> exec s a = Some s' ->
  forall id o g, In (id, (o, g)) (sy_table s') ->
    is_open s' o \/ exists i p, nth_error (sy_thr s') i = Some p /\ closing p = Some (id, (o, g)).
Proof.
  intros s a s' I J H id9 o9 g9.
  exec_cases H; pose proof (j_open s J id9 o9 g9) as JO; fields; try exact JO;
    try (intros T; destruct (JO T) as [O|O]; [left; exact O|right];
         eapply closing_keep; [eassumption|cbn; auto|exact O]).
  - (* spawn *)
    intros T. destruct (JO T) as [O|(i & p & O & C)]; [left; exact O|right].
    exists i, p. split; [|exact C]. rewrite nth_error_app1; [exact O|].
    apply nth_error_Some. congruence.
  - (* make *)
    intros T. destruct (Nat.eq_dec o o9) as [->|D].
    + right. eapply closing_keep; [eassumption|cbn; auto|].
      apply shared_closing; auto.
      eapply own_count; [eassumption|]. cbn. auto.
    + destruct (JO T) as [(ch & O & C)|O].
      * left. exists ch. unfold data_of, closed. fields.
        apply open_set; auto. eapply j_chan; eassumption.
      * right. eapply closing_keep; [eassumption|cbn; auto|exact O].
  - (* ID *)
    rewrite without_absent
      by (eapply (handing_absent s i); [eassumption|assumption|eassumption|reflexivity]).
    intros [T|T].
    + injection T as <- <- <-. left. eapply (j_fresh s J); eassumption.
    + destruct (JO T) as [O|O]; [left; exact O|right].
      eapply closing_keep; [eassumption|cbn; auto|exact O].
  - (* close *)
    intros T.
    assert (In (id, (o, g)) (sy_table s)) as P by (apply (i_put s I _ _ _ Hth); reflexivity).
    destruct (Nat.eq_dec o o9) as [->|D].
    + right. exists i, (PutPool id o9 g). split; [eapply upd_same; eassumption|].
      cbn. f_equal. eapply tab_inj; [apply (j_tab s J)|assumption|assumption|reflexivity].
    + destruct (JO T) as [(ch & O & C)|O].
      * left. exists ch. split; [exact O|]. unfold closed in *. fields.
        rewrite nth_upd_true. destruct (Nat.eqb_spec n ch) as [->|]; [|exact C].
        exfalso. apply D. eapply (j_inj s J); eassumption.
      * right. eapply closing_keep; [eassumption|cbn; auto|exact O].
  - (* delete *)
    intros T. apply without_in in T. destruct T as [T K]. cbn in K.
    destruct (JO T) as [O|(j & q & O & C)]; [left; exact O|right].
    exists j, q. split; [|exact C]. rewrite upd_other; [exact O|]. intros ->.
    rewrite O in Hth. injection Hth as ->. cbn in C. congruence.
  - (* new object *)
    intros T. destruct (JO T) as [(ch & O & C)|O].
    + left. exists ch. split; [|exact C]. unfold data_of in *. fields. rewrite data_new. exact O.
    + right. eapply closing_keep; [eassumption|cbn; auto|exact O].
  - (* delivery *)
    intros T. destruct (JO T) as [O|O]; [left; exact O|right].
    eapply closing_keep; [eapply deliver_other; [eassumption|eassumption|discriminate]|cbn; auto|].
    eapply closing_keep; [eassumption|cbn; auto|exact O].
Qed.

Lemma two_own : forall s i p j q o, nth_error (sy_thr s) i = Some p ->
  nth_error (sy_thr s) j = Some q -> i <> j -> own_objs p = [o] -> own_objs q = [o] ->
  (2 <= cn (flat_map own_objs (sy_thr s)) o)%nat.
Proof.
  intros s i p j q o Ni Nj D Pi Pj.
  pose proof (upd_cn own_objs (sy_thr s) i p PIdle o Ni) as U.
  rewrite Pi, cn_one in U. cbn [own_objs] in U. rewrite cn_nil in U.
  assert (nth_error (upd (sy_thr s) i PIdle) j = Some q) as N2 by (rewrite upd_other; auto).
  pose proof (upd_cn own_objs _ j q PIdle o N2) as V.
  rewrite Pj, cn_one in V. cbn [own_objs] in V. rewrite cn_nil in V. lia.
Qed.

Lemma pooled_le_tab : forall s o, inv1 s ->
  (cn (flat_map pooled_objs (sy_thr s)) o <= cn (tab_objs (sy_table s)) o)%nat.
Proof.
  intros s o I.
  destruct (sy_lock s) as [i|] eqn:L.
  - destruct (i_held s I i L) as [p N].
    assert (locked p = true) as K by (apply (i_lock s I i p N); exact L).
    rewrite (proj1 (cn_perm _ _) (others_pooled s i p I N K) o).
    assert (forall id o' g, putting p = Some (id, (o', g)) ->
            (cn [o'] o <= cn (tab_objs (sy_table s)) o)%nat) as Q.
    { intros id o' g E. pose proof (i_put s I i p _ N E) as T.
      rewrite (cn_tab_without _ _ _ _ o (i_keys s I) T). lia. }
    destruct p; cbn [pooled_objs]; rewrite ?cn_nil; try lia; eapply Q; reflexivity.
  - rewrite (unlocked_pooled s I L), cn_nil. lia.
Qed.

Lemma exec_fresh : forall s a s', inv1 s -> inv2 s -> exec s a = Some s' ->
  forall i id o, nth_error (sy_thr s') i = Some (IDLock id o) -> is_open s' o.
Proof.
  intros s a s' I J H i9 id9 o9 N9.
  exec_cases H; pose proof (fun N => j_fresh s J i9 id9 o9 N) as JF; fields;
    try (apply JF; exact N9);
    try (apply upd_inv in N9; destruct N9 as [[-> Q]|[D N9]];
         [try discriminate Q|try (apply JF; exact N9)]).
  - apply spawn_inv in N9. destruct N9 as [N9|[-> N9]]; [auto|discriminate].
  - destruct o; discriminate.
  - injection Q as <- <-. exists (length (sy_chans s)). unfold data_of, closed. fields.
    rewrite data_set, Nat.eqb_refl.
    assert (o9 < length (sy_objs s))%nat as L.
    { apply (j_range s J). pose proof (own_count s i _ o9 Hth (or_introl eq_refl)). lia. }
    apply nth_error_Some in L. destruct (nth_error (sy_objs s) o9); [|congruence].
    split; [reflexivity|]. rewrite app_nth2 by lia. rewrite Nat.sub_diag. reflexivity.
  - destruct (JF N9) as (ch & O & C). exists ch. unfold data_of, closed. fields.
    apply open_set; auto; [|eapply j_chan; eassumption].
    intros ->. pose proof (two_own s i _ i9 _ o9 Hth N9 (not_eq_sym D) eq_refl eq_refl) as T.
    pose proof (j_objs s J o9). pose proof (pooled_le_tab s o9 I). lia.
  - destruct (JF N9) as (ch & O & C). exists ch. split; [exact O|].
    unfold closed in *. fields. rewrite nth_upd_true.
    destruct (Nat.eqb_spec n ch) as [->|]; [|exact C]. exfalso.
    assert (o = o9) as -> by (eapply (j_inj s J); eassumption).
    assert (In (id, (o9, g)) (sy_table s)) as P by (apply (i_put s I _ _ _ Hth); reflexivity).
    pose proof (tab_count s _ _ _ P) as TC.
    pose proof (own_count s i9 _ o9 N9 (or_introl eq_refl)) as OC.
    pose proof (proj1 (cn_perm _ _) (others_pooled s i _ I Hth eq_refl) o9) as E.
    cbn [pooled_objs] in E. rewrite cn_nil in E. pose proof (j_objs s J o9). lia.
  - destruct (JF N9) as (ch & O & C). exists ch. split; [|exact C].
    unfold data_of in *. fields. rewrite data_new. exact O.
  - apply upd_inv in N9. destruct N9 as [[-> Q]|[D2 N9]]; [discriminate|]. apply JF. exact N9.
Qed.

Lemma exec_inv2 : forall s a s', inv1 s -> inv2 s -> exec s a = Some s' -> inv2 s'.
Proof.
  intros s a s' I J H. constructor.
  - intros o. eapply exec_objs; eassumption.
  - eapply exec_tab; eassumption.
  - intros o. eapply exec_objs; eassumption.
  - eapply exec_chan; eassumption.
  - eapply exec_chan; eassumption.
  - eapply exec_close; eassumption.
  - eapply exec_open; eassumption.
  - eapply exec_fresh; eassumption.
Qed.

(** ** Third group: calls of Send and Receive in progress *)

(** The transaction a Send or Receive has found, with the object or channel it
    works on. *)
Definition found (p : pc) : option (Z * nat * (nat + option nat)) :=
  match p with
  | SendEval id _ o g | RecvEval id o g => Some (id, g, inl o)
  | SendWait id _ c g | RecvWait id c g => Some (id, g, inr c)
  | _ => None
  end.

Definition live_or_closed (s : sys) (id : Z) (g : nat) (x : nat + option nat) : Prop :=
  match x with
  | inl o => data_of s o <> None /\ (In (id, (o, g)) (sy_table s) \/ was_closed s id g)
  | inr c => c <> None /\
      ((exists o, In (id, (o, g)) (sy_table s) /\ data_of s o = c) \/ was_closed s id g)
  end.

(** Every delivery in the log went to the same transaction, unless one of the
    two had been closed before. *)
Fixpoint deliveries_ok (log : list event) : Prop :=
  match log with
  | [] => True
  | EDeliver i sid sg j rid rg v :: t =>
      (In (ESendFound i sid v sg) t /\
       ((sid = rid /\ sg = rg) \/ (exists k, In (EClosed k sid sg) t) \/
        (exists k, In (EClosed k rid rg) t))) /\ deliveries_ok t
  | _ :: t => deliveries_ok t
  end.

Record inv3 (s : sys) : Prop := {
  k_data : forall id o g, In (id, (o, g)) (sy_table s) -> data_of s o <> None;
  k_found : forall i p id g x, nth_error (sy_thr s) i = Some p -> found p = Some (id, g, x) ->
      live_or_closed s id g x;
  k_noted : forall i id v g, (exists o, nth_error (sy_thr s) i = Some (SendEval id v o g)) \/
      (exists c, nth_error (sy_thr s) i = Some (SendWait id v c g)) ->
      In (ESendFound i id v g) (sy_log s);
  k_deliver : deliveries_ok (sy_log s);
  k_crash : sy_crash s = true -> exists i id v c g t, 
      sy_log s = ECrash i :: t /\
      nth_error (sy_thr s) i = Some (SendWait id v (Some c) g) /\ closed s c = true /\
      In (ESendFound i id v g) t /\ exists k, In (EClosed k id g) t
}.

Lemma init_inv3 : forall n, inv3 (init n).
Proof.
  intros n. constructor; cbn; try tauto.
  - intros [|i]; discriminate.
  - intros [|i] id v g [[o H]|[c H]]; discriminate.
  - discriminate.
Qed.

Lemma data_some_mono : forall s a s' o, inv1 s -> inv2 s -> exec s a = Some s' ->
  data_of s o <> None -> data_of s' o <> None.
Proof.
  intros s a s' o9 I J H D.
  exec_cases H; unfold data_of in *; fields; try exact D.
  - rewrite data_set. destruct (Nat.eqb_spec o o9); [|exact D]. subst.
    destruct (nth_error (sy_objs s) o9); [discriminate|]. exfalso. apply D. reflexivity.
  - rewrite data_new. exact D.
Qed.

Lemma closing_was : forall s id o g, inv2 s ->
  (exists i p, nth_error (sy_thr s) i = Some p /\ closing p = Some (id, (o, g))) ->
  was_closed s id g.
Proof. intros s id o g J (i & p & N & C). eapply j_close; eassumption. Qed.

Lemma live_mono : forall s a s' id g x, inv1 s -> inv2 s -> exec s a = Some s' ->
  live_or_closed s id g x -> live_or_closed s' id g x.
Proof.
  intros s a s' id9 g9 x9 I J H L.
  pose proof (fun id g => was_closed_mono s a s' id g H) as W.
  pose proof (fun o => data_some_mono s a s' o I J H) as DM.
  assert (forall o, In (id9, (o, g9)) (sy_table s) ->
            (In (id9, (o, g9)) (sy_table s') /\ data_of s' o = data_of s o)
            \/ was_closed s' id9 g9) as K.
  { intros o9 T. pose proof (W id9 g9) as W9. clear L DM W.
    exec_cases H; try (left; split; [exact T|reflexivity]).
    - destruct (Nat.eq_dec o o9) as [->|D].
      + right. apply W9. eapply closing_was; [assumption|]. eapply shared_closing; eauto.
        eapply own_count; [eassumption|]. cbn. auto.
      + left. split; [exact T|]. unfold data_of. fields. rewrite data_set.
        destruct (Nat.eqb_spec o o9); [contradiction|reflexivity].
    - left. split; [|reflexivity]. fields. right. rewrite without_absent; [exact T|].
      eapply (handing_absent s i); [eassumption|assumption|eassumption|reflexivity].
    - destruct (Z.eq_dec id9 id) as [->|D].
      + right. apply W9.
        assert (In (id, (o, g)) (sy_table s)) as P by (apply (i_put s I _ _ _ Hth); reflexivity).
        pose proof (in_lookup _ _ _ (i_keys s I) P) as E1.
        pose proof (in_lookup _ _ _ (i_keys s I) T) as E2.
        replace g9 with g by congruence.
        eapply (j_close s J); [eassumption|reflexivity].
      + left. split; [|reflexivity]. fields. apply without_keep; [exact T|exact D].
    - left. split; [exact T|]. unfold data_of. fields. apply data_new. }
  destruct x9 as [o9|c9]; cbn in *.
  - destruct L as [L1 [L2|L2]]; split; auto.
    destruct (K _ L2) as [[K1 _]|K1]; auto.
  - destruct L as [L1 [(o9 & L2 & L3)|L2]]; split; auto.
    destruct (K _ L2) as [[K1 K2]|K1]; [left; exists o9|right; exact K1].
    split; [exact K1|congruence].
Qed.

Lemma exec_data : forall s a s', inv1 s -> inv2 s -> inv3 s -> exec s a = Some s' ->
  forall id o g, In (id, (o, g)) (sy_table s') -> data_of s' o <> None.
Proof.
  intros s a s' I J K H id9 o9 g9 T.
  assert (In (id9, (o9, g9)) (sy_table s) -> data_of s' o9 <> None) as Keep.
  { intros T2. eapply data_some_mono; [eassumption..|]. eapply k_data; eassumption. }
  exec_cases H; fields; try (apply Keep; exact T).
  - destruct T as [T|T].
    + injection T as <- <- <-. destruct (j_fresh s J _ _ _ Hth) as (c & O & _).
      change (data_of s o <> None). congruence.
    + apply Keep. apply without_in in T. apply T.
  - apply Keep. apply without_in in T. apply T.
Qed.

Lemma exec_found : forall s a s', inv1 s -> inv2 s -> inv3 s -> exec s a = Some s' ->
  forall i p id g x, nth_error (sy_thr s') i = Some p -> found p = Some (id, g, x) ->
      live_or_closed s' id g x.
Proof.
  intros s a s' I J K H i9 p9 id9 g9 x9 N9 F9.
  assert (forall i p, nth_error (sy_thr s) i = Some p -> found p = Some (id9, g9, x9) ->
            live_or_closed s' id9 g9 x9) as Keep.
  { intros i p N F. eapply live_mono; [eassumption..|]. eapply k_found; eassumption. }
  pose proof (fun x => live_mono s a s' id9 g9 x I J H) as LM.
  pose proof (k_data s K) as KD.
  exec_cases H; fields;
    try (eapply Keep; [exact N9|exact F9]);
    try (apply upd_inv in N9; destruct N9 as [[-> ->]|[D N9]];
         [try discriminate F9|try (eapply Keep; [exact N9|exact F9])]).
  - apply spawn_inv in N9. destruct N9 as [N9|[-> ->]]; [eauto|discriminate].
  - destruct o; discriminate.
  - cbn in F9. injection F9 as -> -> <-.
    assert (In (id9, (n, g9)) (sy_table s)) as P by (apply lookup_in; assumption).
    split; [exact (KD _ _ _ P)|]. left. exact P.
  - cbn in F9. injection F9 as -> -> <-.
    pose proof (k_found s K _ _ _ _ _ Hth eq_refl) as Q. cbn in Q. destruct Q as [Q1 Q2].
    split; [exact Q1|]. destruct Q2 as [Q2|Q2]; [left; eauto|right; exact Q2].
  - cbn in F9. injection F9 as -> -> <-.
    assert (In (id9, (n, g9)) (sy_table s)) as P by (apply lookup_in; assumption).
    split; [exact (KD _ _ _ P)|]. left. exact P.
  - cbn in F9. injection F9 as -> -> <-.
    pose proof (k_found s K _ _ _ _ _ Hth eq_refl) as Q. cbn in Q. destruct Q as [Q1 Q2].
    split; [exact Q1|]. destruct Q2 as [Q2|Q2]; [left; eauto|right; exact Q2].
  - apply upd_inv in N9. destruct N9 as [[-> ->]|[D2 N9]]; [discriminate|].
    eapply Keep; [exact N9|exact F9].
Qed.

Definition sending (p : pc) : option (Z * Z * nat) :=
  match p with
  | SendEval id v _ g | SendWait id v _ g => Some (id, v, g)
  | _ => None
  end.

Lemma k_noted' : forall s i p id v g, inv3 s -> nth_error (sy_thr s) i = Some p ->
  sending p = Some (id, v, g) -> In (ESendFound i id v g) (sy_log s).
Proof.
  intros s i p id v g K N E. apply (k_noted s K).
  destruct p; cbn in E; try discriminate; injection E as -> -> ->; eauto.
Qed.

Lemma exec_noted : forall s a s', inv3 s -> exec s a = Some s' ->
  forall i p id v g, nth_error (sy_thr s') i = Some p -> sending p = Some (id, v, g) ->
      In (ESendFound i id v g) (sy_log s').
Proof.
  intros s a s' K H i9 p9 id9 v9 g9 N9 F9.
  pose proof (fun p => k_noted' s i9 p id9 v9 g9 K) as Keep.
  exec_cases H; fields;
    try (eapply Keep; [exact N9|exact F9]);
    try (right; eapply Keep; [exact N9|exact F9]);
    try (apply upd_inv in N9; destruct N9 as [[-> ->]|[D N9]];
         [try discriminate F9; try (eapply Keep; [eassumption|exact F9])
         |try (eapply Keep; [exact N9|exact F9]);
          try (right; eapply Keep; [exact N9|exact F9])]).
  - apply spawn_inv in N9. destruct N9 as [N9|[-> ->]]; [eauto|discriminate].
  - destruct o; discriminate.
  - cbn in F9. injection F9 as -> -> ->. left. reflexivity.
  - apply upd_inv in N9. destruct N9 as [[-> ->]|[D2 N9]]; [discriminate|].
    right. eapply Keep; [exact N9|exact F9].
Qed.

Lemma exec_deliver : forall s a s', inv1 s -> inv2 s -> inv3 s -> exec s a = Some s' ->
  deliveries_ok (sy_log s').
Proof.
  intros s a s' I J K H. pose proof (k_deliver s K) as KD.
  exec_cases H; fields; try exact KD.
  cbn [deliveries_ok]. split; [|exact KD].
  apply andb_prop in Heqb0. destruct Heqb0 as [E _]. apply Nat.eqb_eq in E. subst n0.
  split; [eapply k_noted'; [exact K|eassumption|reflexivity]|].
  pose proof (k_found s K _ _ _ _ _ Hth eq_refl) as [_ Q1].
  pose proof (k_found s K _ _ _ _ _ Hrcv eq_refl) as [_ Q2].
  destruct Q1 as [(o1 & T1 & D1)|Q1]; [|right; left; exact Q1].
  destruct Q2 as [(o2 & T2 & D2)|Q2]; [|right; right; exact Q2].
  left. assert (o1 = o2) as <- by (eapply (j_inj s J); eassumption).
  pose proof (tab_inj s _ _ (j_tab s J) T1 T2 eq_refl) as E. split; congruence.
Qed.

Lemma put_open : forall s i id o g, inv1 s -> inv2 s ->
  nth_error (sy_thr s) i = Some (PutClose id o g) -> is_open s o.
Proof.
  intros s i id o g I J N.
  pose proof (i_put s I i _ _ N eq_refl) as T.
  destruct (j_open s J _ _ _ T) as [O|(j & p & N2 & C)]; [exact O|].
  assert (sy_lock s = Some i) as L1 by (apply (i_lock s I i _ N); reflexivity).
  assert (sy_lock s = Some j) as L2
    by (apply (i_lock s I j _ N2); destruct p; cbn in *; congruence).
  assert (i = j) as <- by congruence. rewrite N in N2. injection N2 as <-. discriminate.
Qed.

Lemma exec_crash : forall s a s', inv1 s -> inv2 s -> inv3 s -> exec s a = Some s' ->
  sy_crash s' = true -> exists i id v c g t,
      sy_log s' = ECrash i :: t /\
      nth_error (sy_thr s') i = Some (SendWait id v (Some c) g) /\ closed s' c = true /\
      In (ESendFound i id v g) t /\ exists k, In (EClosed k id g) t.
Proof.
  intros s a s' I J K H C.
  exec_cases H; fields; try congruence.
  - exfalso. destruct (put_open s _ _ _ _ I J Hth) as (c & E & F). congruence.
  - exfalso. destruct (put_open s _ _ _ _ I J Hth) as (c & E & F). congruence.
  - exists i, id, v, n, g, (sy_log s). split; [reflexivity|]. split; [assumption|].
    split; [assumption|]. split; [eapply k_noted'; [exact K|eassumption|reflexivity]|].
    pose proof (k_found s K _ _ _ _ _ Hth eq_refl) as [_ Q].
    destruct Q as [(o & T & D)|Q]; [|exact Q].
    destruct (j_open s J _ _ _ T) as [(c1 & E & F)|Q]; [congruence|].
    eapply closing_was; eassumption.
Qed.

Lemma exec_inv3 : forall s a s', inv1 s -> inv2 s -> inv3 s -> exec s a = Some s' -> inv3 s'.
Proof.
  intros s a s' I J K H. constructor.
  - eapply exec_data; eassumption.
  - eapply exec_found; eassumption.
  - intros i id v g [[o N]|[c N]]; eapply exec_noted; try eassumption; reflexivity.
  - eapply exec_deliver; eassumption.
  - eapply exec_crash; eassumption.
Qed.

Lemma run_inv : forall l s s', inv1 s -> inv2 s -> inv3 s -> run s l = Some s' ->
  inv1 s' /\ inv2 s' /\ inv3 s' /\ sy_size s' = sy_size s.
Proof.
  induction l as [|a l IH]; cbn; intros s s' I J K H.
  - injection H as <-. auto.
  - destruct (exec s a) as [s1|] eqn:E; [|discriminate].
    destruct (IH s1 s') as (A & B & C & D);
      eauto using exec_inv1, exec_inv2, exec_inv3.
    split; [exact A|]. split; [exact B|]. split; [exact C|].
    rewrite D. eapply exec_size; eassumption.
Qed.

Lemma reach_inv : forall n s, reachable n s ->
  inv1 s /\ inv2 s /\ inv3 s /\ sy_size s = n.
Proof.
  intros n s [l H]. destruct (run_inv l (init n) s) as (A & B & C & D);
    auto using init_inv1, init_inv2, init_inv3.
Qed.
