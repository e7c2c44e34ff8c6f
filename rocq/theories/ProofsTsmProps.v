(** * The transaction manager properties, from the invariants *)

Require Import List ZArith Bool Lia Permutation.
Require Import Verif.ModelTsm Verif.SpecTsm Verif.ProofsTsm.
Import ListNotations.
Open Scope Z_scope.

(** ** Ids and slots *)

Lemma ids_unique : forall n s, reachable n s ->
  NoDup (in_progress (sy_log s)) /\
  Forall (fun id => 1 <= id <= 254) (in_progress (sy_log s)).
Proof.
  intros n s R. destruct (reach_inv n s R) as (I & _ & _ & _).
  rewrite (i_log s I). split; [apply (i_keys s I)|].
  apply Forall_forall. intros id H. apply all_ids_range. apply (i_range s I id H).
Qed.

Lemma conservation : forall n s, reachable n s ->
  Permutation (sy_ids s ++ flat_map handing (sy_thr s) ++ in_progress (sy_log s))
              (all_ids ++ flat_map returning (sy_thr s)) /\
  (sy_space s + total taking_slot (sy_thr s) + length (in_progress (sy_log s))
     = n + total giving_slot (sy_thr s))%nat /\
  (length (in_progress (sy_log s)) <= n)%nat.
Proof.
  intros n s R. destruct (reach_inv n s R) as (I & _ & _ & Z).
  rewrite (i_log s I), map_length, <- Z. split; [|split].
  - apply cz_perm. intros x. rewrite !cz_app. pose proof (i_ids s I x). lia.
  - apply (i_space s I).
  - apply (i_size s I).
Qed.

Lemma outside_lists : forall l, (forall p, In p l -> outside p = true) ->
  flat_map handing l = [] /\ flat_map returning l = [] /\
  total taking_slot l = 0%nat /\ total giving_slot l = 0%nat.
Proof.
  induction l as [|p l IH]; intros H; [repeat split|].
  destruct IH as (A & B & C & D); [intros q Hq; apply H; right; exact Hq|].
  pose proof (H p (or_introl eq_refl)) as P. cbn. rewrite A, B, C, D.
  destruct p; cbn in *; try discriminate; auto.
Qed.

(** Nothing is lost: when no goroutine is inside ID or Put, the channels hold
    exactly what is not in progress. *)
Lemma nothing_lost : forall n s, reachable n s ->
  (forall p, In p (sy_thr s) -> outside p = true) ->
  Permutation (sy_ids s ++ in_progress (sy_log s)) all_ids /\
  (sy_space s + length (in_progress (sy_log s)) = n)%nat.
Proof.
  intros n s R H. destruct (conservation n s R) as (A & B & _).
  destruct (outside_lists _ H) as (E1 & E2 & E3 & E4).
  rewrite E1, E2, app_nil_r in A. cbn [app] in A. rewrite E3, E4 in B. split; [exact A|lia].
Qed.

(** A call of ID made then succeeds, whatever else is going on outside. *)
Lemma id_succeeds : forall n s i, reachable n s -> sy_crash s = false ->
  (forall p, In p (sy_thr s) -> outside p = true) ->
  nth_error (sy_thr s) i = Some IDSpace ->
  (length (in_progress (sy_log s)) < n)%nat ->
  (length (in_progress (sy_log s)) < 254)%nat ->
  exists id o s', run s [AStep i; AStep i; AGet i None; AStep i; AStep i] = Some s' /\
    sy_log s' = EGot i id o (sy_gen s) :: sy_log s /\ ~ In id (in_progress (sy_log s)).
Proof.
  intros n s i R C H N L1 L2.
  destruct (nothing_lost n s R H) as (P & S).
  destruct (reach_inv n s R) as (I & J & K & Z).
  assert (sy_lock s = None) as L.
  { destruct (sy_lock s) as [j|] eqn:E; [|reflexivity].
    destruct (i_held s I j E) as [p Hp].
    assert (locked p = true) as Q by (apply (i_lock s I j p Hp); exact E).
    specialize (H p (nth_error_In _ _ Hp)). destruct p; discriminate. }
  destruct (sy_space s) as [|m] eqn:M; [lia|].
  destruct (sy_ids s) as [|id t] eqn:T.
  { apply Permutation_length in P. cbn [app] in P.
    unfold all_ids in P. rewrite map_length, seq_length in P. lia. }
  assert (i < length (sy_thr s))%nat as Li by (apply nth_error_Some; congruence).
  exists id, (length (sy_objs s)).
  cbn [run]. unfold exec at 1. rewrite C, N. cbn [step_of]. rewrite M.
  unfold exec at 1; fields. rewrite C, (upd_same _ _ _ _ _ N). cbn [step_of]; fields. rewrite T.
  assert (forall p q, nth_error (upd (upd (sy_thr s) i p) i q) i = Some q) as U1.
  { intros p q. apply (upd_same _ _ _ _ p). apply (upd_same _ _ _ _ _ N). }
  unfold exec at 1; fields. rewrite C, U1.
  assert (forall p q r, nth_error (upd (upd (upd (sy_thr s) i p) i q) i r) i = Some r) as U2.
  { intros p q r. apply (upd_same _ _ _ _ q). apply U1. }
  unfold exec at 1; fields. rewrite C, U2. cbn [step_of]; fields.
  assert (forall p q r t, nth_error (upd (upd (upd (upd (sy_thr s) i p) i q) i r) i t) i = Some t) as U3.
  { intros p q r u. apply (upd_same _ _ _ _ r). apply U2. }
  unfold exec at 1; fields. rewrite C, U3. cbn [step_of]; fields. rewrite L.
  eexists. split; [reflexivity|]. split; [reflexivity|].
  cbn [app] in P.
  assert (NoDup (id :: t ++ in_progress (sy_log s))) as ND
    by (eapply Permutation_NoDup; [symmetry; exact P|apply all_ids_nodup]).
  inversion ND; subst. intros Q. apply H2. apply in_or_app. right. exact Q.
Qed.

(** ** Put *)

Definition rank (p : pc) : nat :=
  match p with
  | PutClose _ _ _ => 5 | PutPool _ _ _ => 4 | PutId _ _ _ => 3 | PutSpace _ _ _ => 2
  | PutDel _ _ _ => 1 | _ => 0
  end.

Lemma put_step : forall s i p id o g, inv1 s -> inv2 s -> sy_crash s = false ->
  nth_error (sy_thr s) i = Some p -> putting p = Some (id, (o, g)) ->
  exists s', exec s (AStep i) = Some s' /\ sy_crash s' = false /\
    ((exists p', nth_error (sy_thr s') i = Some p' /\ putting p' = Some (id, (o, g)) /\
                 rank p = S (rank p')) \/
     (nth_error (sy_thr s') i = Some PIdle /\ sy_lock s' = None /\ rank p = 1%nat /\
      sy_log s' = EPut i id g :: sy_log s)).
Proof.
  intros s i p id o g I J C N P.
  assert (forall q, nth_error (upd (sy_thr s) i q) i = Some q) as U
    by (intros q; apply (upd_same _ _ _ _ _ N)).
  assert (locked p = true) as L by (destruct p; cbn in *; congruence).
  destruct (others_returning s i p I N L) as [R1 R2].
  pose proof (i_put s I i p _ N P) as T.
  destruct p; cbn in P; try discriminate; injection P as -> -> ->;
    unfold exec; rewrite C, N; cbn [step_of].
  - destruct (put_open s i id o g I J N) as (c & E & F). rewrite E, F.
    eexists. split; [reflexivity|]. split; [exact C|]. left. fields.
    eexists. split; [apply U|]. split; reflexivity.
  - eexists. split; [reflexivity|]. split; [exact C|]. left. fields.
    eexists. split; [apply U|]. split; reflexivity.
  - assert (length (sy_ids s) < cap_ids)%nat as Q.
    { assert (length (sy_ids s) <= length all_ids)%nat as Q.
      { apply NoDup_incl_length.
        - apply cz_nodup. intros x. pose proof (i_ids s I x) as E.
          rewrite (proj1 (cz_perm _ _) R1 x) in E. cbn [returning] in E. rewrite cz_nil in E.
          pose proof (proj1 (cz_nodup _) all_ids_nodup x). lia.
        - intros x Hx. apply cz_in in Hx. apply cz_in. pose proof (i_ids s I x) as E.
          rewrite (proj1 (cz_perm _ _) R1 x) in E. cbn [returning] in E. rewrite cz_nil in E. lia. }
      unfold all_ids in Q. rewrite map_length, seq_length in Q. unfold cap_ids. lia. }
    apply Nat.ltb_lt in Q. rewrite Q.
    eexists. split; [reflexivity|]. split; [exact C|]. left. fields.
    eexists. split; [apply U|]. split; reflexivity.
  - assert (sy_space s < sy_size s)%nat as Q.
    { pose proof (i_space s I) as E. rewrite R2 in E. cbn [giving_slot] in E.
      destruct (sy_table s); [destruct T|]. cbn [length] in E. lia. }
    apply Nat.ltb_lt in Q. rewrite Q.
    eexists. split; [reflexivity|]. split; [exact C|]. left. fields.
    eexists. split; [apply U|]. split; reflexivity.
  - eexists. split; [reflexivity|]. split; [exact C|]. right. fields.
    split; [apply U|]. split; [reflexivity|]. split; reflexivity.
Qed.

Lemma put_runs : forall k s i p id o g, inv1 s -> inv2 s -> sy_crash s = false ->
  nth_error (sy_thr s) i = Some p -> putting p = Some (id, (o, g)) -> rank p = k ->
  exists s', run s (repeat (AStep i) k) = Some s' /\ sy_crash s' = false /\
    sy_lock s' = None /\
    exists t, sy_log s' = EPut i id g :: t /\ NoDup (in_progress t).
Proof.
  induction k; intros s i p id o g I J C N P K.
  - destruct p; cbn in *; discriminate.
  - destruct (put_step s i p id o g I J C N P) as (s1 & E & C1 & [Q|Q]).
    + destruct Q as (p' & N' & P' & K').
      destruct (IHk s1 i p' id o g) as (s2 & R2 & Q2);
        eauto using exec_inv1, exec_inv2; [lia|].
      exists s2. split; [|exact Q2]. cbn [repeat run]. now rewrite E.
    + destruct Q as (N' & L' & K' & T').
      assert (k = 0)%nat as -> by lia.
      exists s1. cbn. rewrite E. split; [reflexivity|]. split; [exact C1|].
      split; [exact L'|]. exists (sy_log s). split; [exact T'|].
      rewrite (i_log s I). apply (i_keys s I).
Qed.

(** The goroutine that holds the mutex is inside Put and completes by its own
    steps alone, never blocking and never panicking. *)
Lemma put_completes : forall n s i, reachable n s -> sy_crash s = false ->
  sy_lock s = Some i ->
  exists k s' id g t, run s (repeat (AStep i) k) = Some s' /\ sy_crash s' = false /\
    sy_lock s' = None /\ sy_log s' = EPut i id g :: t /\ In id (in_progress (sy_log s)) /\
    ~ In id (in_progress (sy_log s')).
Proof.
  intros n s i R C L. destruct (reach_inv n s R) as (I & J & K & Z).
  destruct (i_held s I i L) as [p N].
  assert (locked p = true) as Q by (apply (i_lock s I i p N); exact L).
  assert (exists id o g, putting p = Some (id, (o, g))) as (id & o & g & P)
    by (destruct p; cbn in Q; try discriminate; cbn; eauto).
  destruct (put_runs _ s i p id o g I J C N P eq_refl) as (s' & R' & C' & L' & t & T' & ND).
  exists (rank p), s', id, g, t. repeat split; auto.
  - rewrite (i_log s I). change id with (fst (id, (o, g))). apply in_map.
    eapply i_put; eassumption.
  - rewrite T'. cbn [in_progress].
    clear - ND. induction (in_progress t) as [|x l IH]; cbn; [tauto|].
    inversion ND; subst. destruct (Z.eqb_spec x id); [subst; assumption|].
    cbn. intros [Q|Q]; [contradiction|]. now apply IH.
Qed.

Lemma lookup_absent : forall s id, inv1 s -> ~ In id (in_progress (sy_log s)) ->
  lookup id (sy_table s) = None.
Proof.
  intros s id I H. destruct (lookup id (sy_table s)) as [x|] eqn:E; [|reflexivity].
  exfalso. apply H. rewrite (i_log s I). apply lookup_in in E.
  change id with (fst (id, x)). now apply in_map.
Qed.

(** Put of an id that is not in progress. *)
Lemma put_refused : forall n s i id, reachable n s -> sy_crash s = false ->
  sy_lock s = None -> nth_error (sy_thr s) i = Some (PutLock id) ->
  ~ In id (in_progress (sy_log s)) ->
  exists s', exec s (AStep i) = Some s' /\ untouched i s s' /\
    nth_error (sy_thr s') i = Some PIdle /\ sy_log s' = EPutErr i id :: sy_log s.
Proof.
  intros n s i id R C L N H. destruct (reach_inv n s R) as (I & _ & _ & _).
  unfold exec. rewrite C, N. cbn [step_of]. rewrite L, (lookup_absent s id I H).
  eexists. split; [reflexivity|]. fields. repeat split.
  - intros j D. fields. now rewrite upd_other by auto.
  - apply (upd_same _ _ _ _ _ N).
Qed.

(** A slot taken by an ID call that times out goes back without blocking. *)
Lemma back_enabled : forall n s i, reachable n s -> sy_crash s = false ->
  nth_error (sy_thr s) i = Some IDBack -> exists s', exec s (AStep i) = Some s' /\
    sy_log s' = ENoId i :: sy_log s.
Proof.
  intros n s i R C N. destruct (reach_inv n s R) as (I & _ & _ & _).
  assert (sy_space s < sy_size s)%nat as Q.
  { pose proof (i_space s I) as E.
    pose proof (upd_total taking_slot (sy_thr s) i _ PIdle N) as U. cbn [taking_slot] in U.
    assert (total giving_slot (sy_thr s) <= length (sy_table s))%nat.
    { destruct (sy_lock s) as [j|] eqn:L.
      - destruct (i_held s I j L) as [p Np].
        assert (locked p = true) as K by (apply (i_lock s I j p Np); exact L).
        destruct (others_returning s j p I Np K) as [_ ->].
        assert (exists e, putting p = Some e) as [e P]
          by (destruct p; cbn in K; try discriminate; cbn; eauto).
        pose proof (i_put s I j p e Np P) as T. destruct (sy_table s); [destruct T|].
        cbn [length]. destruct p; cbn; lia.
      - destruct (unlocked_returning s I L) as [_ ->]. lia. }
    lia. }
  apply Nat.ltb_lt in Q. unfold exec. rewrite C, N. cbn [step_of]. rewrite Q.
  eexists. split; reflexivity.
Qed.

(** ** Send and Receive *)

(** A reply for an id that is not in progress is refused. *)
Lemma send_refused : forall n s i id v, reachable n s -> sy_crash s = false ->
  sy_lock s = None -> nth_error (sy_thr s) i = Some (SendLock id v) ->
  ~ In id (in_progress (sy_log s)) ->
  exists s', exec s (AStep i) = Some s' /\ untouched i s s' /\
    nth_error (sy_thr s') i = Some PIdle /\ sy_log s' = ESendErr i id v :: sy_log s.
Proof.
  intros n s i id v R C L N H. destruct (reach_inv n s R) as (I & _ & _ & _).
  unfold exec. rewrite C, N. cbn [step_of]. rewrite L, (lookup_absent s id I H).
  eexists. split; [reflexivity|]. fields. repeat split.
  - intros j D. fields. now rewrite upd_other by auto.
  - apply (upd_same _ _ _ _ _ N).
Qed.

Lemma deliveries_split : forall l1 i sid sg j rid rg v l2,
  deliveries_ok (l1 ++ EDeliver i sid sg j rid rg v :: l2) ->
  In (ESendFound i sid v sg) l2 /\
  ((sid = rid /\ sg = rg) \/ (exists k, In (EClosed k sid sg) l2) \/
   (exists k, In (EClosed k rid rg) l2)).
Proof.
  induction l1 as [|e l1 IH]; intros i sid sg j rid rg v l2 H; cbn [app deliveries_ok] in H.
  - apply H.
  - eapply IH. destruct e; try exact H. apply H.
Qed.

(** A delivery reaches another transaction only if the sender's or the
    receiver's transaction had been released meanwhile. *)
Lemma deliveries_same : forall n s, reachable n s ->
  forall l1 i sid sg j rid rg v l2,
    sy_log s = l1 ++ EDeliver i sid sg j rid rg v :: l2 ->
    In (ESendFound i sid v sg) l2 /\
    ((sid = rid /\ sg = rg) \/ (exists k, In (EClosed k sid sg) l2) \/
     (exists k, In (EClosed k rid rg) l2)).
Proof.
  intros n s R l1 i sid sg j rid rg v l2 E.
  destruct (reach_inv n s R) as (_ & _ & K & _).
  pose proof (k_deliver s K) as D. rewrite E in D. eapply deliveries_split. exact D.
Qed.

(** The process crashes only when a Send that had found its transaction is
    overtaken by the Put of that transaction. *)
Lemma crash_only_overtaken : forall n s, reachable n s -> sy_crash s = true ->
  exists i id v g t, sy_log s = ECrash i :: t /\ overtaken t i id v g.
Proof.
  intros n s R C. destruct (reach_inv n s R) as (_ & _ & K & _).
  destruct (k_crash s K C) as (i & id & v & c & g & t & E1 & _ & _ & E2 & E3).
  exists i, id, v, g, t. split; [exact E1|]. split; assumption.
Qed.

(** *** Runs in which sync.Pool never hands out a used object *)

(** Hand-outs in the log: object, id, transaction. *)
Fixpoint handed (log : list event) : list (nat * (Z * nat)) :=
  match log with
  | [] => []
  | EGot _ id o g :: t => (o, (id, g)) :: handed t
  | _ :: t => handed t
  end.

Record inv4 (s : sys) : Prop := {
  m_nodup : NoDup (map fst (handed (sy_log s)));
  m_own : forall i p o, nth_error (sy_thr s) i = Some p -> In o (own_objs p) ->
            ~ In o (map fst (handed (sy_log s)));
  m_range : forall o, In o (map fst (handed (sy_log s))) -> (o < length (sy_objs s))%nat;
  m_tab : forall id o g, In (id, (o, g)) (sy_table s) -> In (o, (id, g)) (handed (sy_log s));
  m_found : forall i p id g x, nth_error (sy_thr s) i = Some p -> found p = Some (id, g, x) ->
    match x with
    | inl o => In (o, (id, g)) (handed (sy_log s))
    | inr c => exists o, In (o, (id, g)) (handed (sy_log s)) /\ data_of s o = c
    end;
  m_same : forall i sid sg j rid rg v, In (EDeliver i sid sg j rid rg v) (sy_log s) ->
    sid = rid /\ sg = rg
}.

Lemma init_inv4 : forall n, inv4 (init n).
Proof.
  intros n. constructor; cbn [init sy_log sy_thr sy_table handed map].
  - constructor.
  - intros [|i]; discriminate.
  - intros o [].
  - intros id o g [].
  - intros [|i]; discriminate.
  - intros i sid sg j rid rg v [].
Qed.

Lemma nodup_fst : forall (l : list (nat * (Z * nat))) o x y, NoDup (map fst l) ->
  In (o, x) l -> In (o, y) l -> x = y.
Proof.
  induction l as [|[o' z] l IH]; cbn; intros o x y N H1 H2; [tauto|].
  inversion N; subst.
  destruct H1 as [H1|H1], H2 as [H2|H2]; try congruence.
  - injection H1 as -> ->. exfalso. apply H3.
    change o with (fst (o, y)). now apply in_map.
  - injection H2 as -> ->. exfalso. apply H3.
    change o with (fst (o, x)). now apply in_map.
  - eauto.
Qed.

Lemma handed_mono : forall s a s' x, exec s a = Some s' ->
  In x (handed (sy_log s)) -> In x (handed (sy_log s')).
Proof.
  intros s a s' x9 H W. exec_cases H; fields; cbn [handed]; try exact W. right. exact W.
Qed.

Lemma handed_data : forall s a s' o, inv4 s -> exec s a = Some s' ->
  In o (map fst (handed (sy_log s))) -> data_of s' o = data_of s o.
Proof.
  intros s a s' o9 M H W. exec_cases H; try reflexivity.
  - unfold data_of. fields. rewrite data_set. destruct (Nat.eqb_spec o o9); [|reflexivity].
    subst. exfalso. eapply (m_own s M); [exact Hth|cbn; auto|exact W].
  - unfold data_of. fields. apply data_new.
Qed.

Lemma exec_inv4 : forall s a s', inv1 s -> inv2 s -> inv4 s -> reuses a = false ->
  exec s a = Some s' -> inv4 s'.
Proof.
  intros s a s' I J M RU H.
  pose proof (fun x => handed_mono s a s' x H) as HM.
  pose proof (fun o => handed_data s a s' o M H) as HD.
  constructor.
  - pose proof (m_nodup s M) as Q. clear HM HD.
    exec_cases H; fields; cbn [handed map]; try exact Q.
    constructor; [|exact Q]. eapply (m_own s M); [exact Hth|cbn; auto].
  - intros i9 p9 o9 N9 O9. pose proof (fun p => m_own s M i9 p o9) as Q. clear HM HD.
    exec_cases H; fields; cbn [handed map]; try (eapply Q; eassumption);
      try (apply upd_inv in N9; destruct N9 as [[-> ->]|[D N9]];
           [try (destruct O9; fail); try (eapply Q; eassumption)|try (eapply Q; eassumption)]).
    + apply spawn_inv in N9. destruct N9 as [N9|[-> ->]]; [eauto|destruct O9].
    + destruct o; destruct O9.
    + (* ID returns *)
      intros [W|W]; [|exact (Q _ N9 O9 W)].
      cbn in W. subst o9.
      assert (own_objs p9 = [o]) as E
        by (destruct p9; cbn in O9; try tauto; destruct O9 as [->|[]]; reflexivity).
      pose proof (two_own s i _ i9 _ o Hth N9 (not_eq_sym D) eq_refl E) as T.
      pose proof (j_objs s J o). pose proof (pooled_le_tab s o I). lia.
    + (* pooled object *) discriminate.
    + (* new object *)
      destruct O9 as [<-|[]]. intros W. apply (m_range s M) in W. lia.
    + apply upd_inv in N9. destruct N9 as [[-> ->]|[D2 N9]]; [destruct O9|eauto].
  - intros o9. pose proof (m_range s M o9) as Q. clear HM HD.
    exec_cases H; fields; cbn [handed map]; try exact Q.
    + rewrite upd_length. exact Q.
    + intros [<-|W]; [|auto]. cbn. apply (j_range s J).
      pose proof (own_count s i _ o Hth (or_introl eq_refl)). lia.
    + intros W. rewrite app_length. cbn [length]. apply Q in W. lia.
  - intros id9 o9 g9 T. pose proof (m_tab s M id9 o9 g9) as Q.
    assert (In (id9, (o9, g9)) (sy_table s) -> In (o9, (id9, g9)) (handed (sy_log s'))) as Q2
      by auto.
    clear HM HD Q. exec_cases H; fields; try (apply Q2; exact T).
    + destruct T as [T|T].
      * injection T as <- <- <-. left. reflexivity.
      * apply Q2. apply without_in in T. apply T.
    + apply Q2. apply without_in in T. apply T.
  - intros i9 p9 id9 g9 x9 N9 F9.
    assert (forall i p x, nth_error (sy_thr s) i = Some p -> found p = Some (id9, g9, x) ->
      match x with
      | inl o => In (o, (id9, g9)) (handed (sy_log s'))
      | inr c => exists o, In (o, (id9, g9)) (handed (sy_log s')) /\ data_of s' o = c
      end) as Keep.
    { intros i p x N F. pose proof (m_found s M i p id9 g9 x N F) as Q.
      destruct x as [o|c]; [auto|]. destruct Q as (o & Q1 & Q2). exists o.
      split; [auto|]. rewrite HD; [exact Q2|].
      change o with (fst (o, (id9, g9))). now apply in_map. }
    clear HM HD.
    exec_cases H; fields;
      try (eapply Keep; [exact N9|exact F9]);
      try (apply upd_inv in N9; destruct N9 as [[-> ->]|[D N9]];
           [try discriminate F9|try (eapply Keep; [exact N9|exact F9])]).
    + apply spawn_inv in N9. destruct N9 as [N9|[-> ->]]; [exact (Keep _ _ _ N9 F9)|discriminate].
    + destruct o; discriminate.
    + cbn in F9. injection F9 as -> -> <-. cbn [handed]. apply (m_tab s M).
      now apply lookup_in.
    + cbn in F9. injection F9 as -> -> <-.
      pose proof (Keep _ _ _ Hth eq_refl) as Q. cbn in Q. exists o. split; [exact Q|reflexivity].
    + cbn in F9. injection F9 as -> -> <-. cbn [handed]. apply (m_tab s M).
      now apply lookup_in.
    + cbn in F9. injection F9 as -> -> <-.
      pose proof (Keep _ _ _ Hth eq_refl) as Q. cbn in Q. exists o. split; [exact Q|reflexivity].
    + apply upd_inv in N9. destruct N9 as [[-> ->]|[D2 N9]]; [discriminate|].
      eapply Keep; [exact N9|exact F9].
  - intros i9 sid sg j9 rid rg v9 W. pose proof (m_same s M i9 sid sg j9 rid rg v9) as Q.
    clear HM HD. exec_cases H; fields; try (apply Q; exact W);
      try (destruct W as [W|W]; [discriminate W|apply Q; exact W]).
    destruct W as [W|W]; [|auto]. injection W as <- <- <- <- <- <- <-.
    apply andb_prop in Heqb0. destruct Heqb0 as [E _]. apply Nat.eqb_eq in E. subst n0.
    destruct (m_found s M _ _ _ _ _ Hth eq_refl) as (o1 & A1 & B1).
    destruct (m_found s M _ _ _ _ _ Hrcv eq_refl) as (o2 & A2 & B2).
    assert (o1 = o2) as <- by (eapply (j_inj s J); eassumption).
    pose proof (nodup_fst _ _ _ _ (m_nodup s M) A1 A2) as E. split; congruence.
Qed.

Lemma no_reuse_same : forall n l s, run (init n) l = Some s ->
  forallb (fun a => negb (reuses a)) l = true ->
  forall i sid sg j rid rg v, In (EDeliver i sid sg j rid rg v) (sy_log s) ->
  sid = rid /\ sg = rg.
Proof.
  intros n l s H F.
  assert (inv4 s) as M; [|intros; eapply m_same; eassumption].
  revert H F. generalize (init_inv1 n) (init_inv2 n) (init_inv4 n). generalize (init n).
  induction l as [|a l IH]; cbn; intros s0 I J M H F.
  - injection H as <-. exact M.
  - destruct (exec s0 a) as [s1|] eqn:E; [|discriminate].
    apply andb_prop in F. destruct F as [F1 F2].
    eapply (IH s1); eauto using exec_inv1, exec_inv2.
    eapply exec_inv4; eauto. destruct (reuses a); [discriminate|reflexivity].
Qed.

(** *** The two counterexamples *)

(** A calls ID and gets 1.  A reply for 1 arrives (goroutine 1 looks the
    transaction up).  A gives up and calls Put(1).  B calls ID, gets 2, and
    sync.Pool returns the same state object; B waits for its reply.  Goroutine 1
    evaluates s.data, which is now B's channel: B receives the reply to A. *)
Definition misdelivery : list action :=
  [ASpawn; ASpawn; ASpawn;
   ACall 0 CallID; AStep 0; AStep 0; AGet 0 None; AStep 0; AStep 0;      (* A: id 1 *)
   ACall 0 (CallRecv 1); AStep 0; AStep 0;
   ACall 1 (CallSend 1 77); AStep 1;                                     (* looked up *)
   ATimeout 0; ACall 0 (CallPut 1); AStep 0; AStep 0; AStep 0; AStep 0; AStep 0; AStep 0;
   ACall 2 CallID; AStep 2; AStep 2; AGet 2 (Some 0%nat); AStep 2; AStep 2; (* B: id 2 *)
   ACall 2 (CallRecv 2); AStep 2; AStep 2;
   AStep 1; ADeliver 1 2].

Lemma misdelivered : exists s, run (init 20) misdelivery = Some s /\
  hd_error (sy_log s) = Some (EDeliver 1 1 0 2 2 1 77).
Proof. eexists. split; [vm_compute; reflexivity|reflexivity]. Qed.

(** A calls ID and gets 1, its request is answered twice (the datagram is
    duplicated, or the device answers a retry as well): the first reply is
    received, the second waits; A calls Put and the second Send panics. *)
Definition duplicate : list action :=
  [ASpawn; ASpawn; ASpawn;
   ACall 0 CallID; AStep 0; AStep 0; AGet 0 None; AStep 0; AStep 0;
   ACall 0 (CallRecv 1); AStep 0; AStep 0;
   ACall 1 (CallSend 1 77); AStep 1; AStep 1; ADeliver 1 0;
   ACall 2 (CallSend 1 77); AStep 2; AStep 2;
   ACall 0 (CallPut 1); AStep 0; AStep 0; AStep 0; AStep 0; AStep 0; AStep 0;
   AStep 2].

Lemma duplicate_crashes : exists s, run (init 20) duplicate = Some s /\
  sy_crash s = true.
Proof. eexists. split; [vm_compute; reflexivity|reflexivity]. Qed.

(** A reply that arrives after the last timeout of its caller, before Put. *)
Definition late : list action :=
  [ASpawn; ASpawn;
   ACall 0 CallID; AStep 0; AStep 0; AGet 0 None; AStep 0; AStep 0;
   ACall 0 (CallRecv 1); AStep 0; AStep 0; ATimeout 0;
   ACall 1 (CallSend 1 77); AStep 1; AStep 1;
   ACall 0 (CallPut 1); AStep 0; AStep 0;
   AStep 1].

Lemma late_crashes : exists s, run (init 20) late = Some s /\ sy_crash s = true.
Proof. eexists. split; [vm_compute; reflexivity|reflexivity]. Qed.

(** Once a sender has been overtaken it can do nothing but crash: no run avoids
    it, short of never scheduling the goroutine again. *)
Lemma overtaken_doomed : forall l s s' i id v c g,
  nth_error (sy_thr s) i = Some (SendWait id v (Some c) g) -> closed s c = true ->
  run s l = Some s' ->
  nth_error (sy_thr s') i = Some (SendWait id v (Some c) g) /\ closed s' c = true.
Proof.
  induction l as [|a l IH]; cbn [run]; intros s s' i id v c g N C H.
  - injection H as <-. auto.
  - destruct (exec s a) as [s1|] eqn:E; [|discriminate].
    eapply IH; [| |exact H]; clear IH H.
    + revert N C. exec_cases E; intros N C; fields; try exact N;
        try (rewrite upd_other; [exact N|]; intros ->; congruence).
      * rewrite nth_error_app1; [exact N|]. apply nth_error_Some. congruence.
      * rewrite !upd_other; [exact N| |]; intros ->; try congruence.
        rewrite N in Hth. injection Hth as <- <- <- <-. rewrite C, andb_false_r in Heqb0.
        discriminate.
    + clear N. exec_cases E; unfold closed in *; fields; try exact C.
      * rewrite app_nth1; [exact C|].
        destruct (Nat.lt_ge_cases c (length (sy_chans s))) as [Q|Q]; [exact Q|].
        rewrite nth_overflow in C by exact Q. discriminate.
      * rewrite nth_upd_true. destruct (Nat.eqb_spec n c); [|exact C]. subst.
        assert (c < length (sy_chans s))%nat as Q.
        { destruct (Nat.lt_ge_cases c (length (sy_chans s))) as [Q|Q]; [exact Q|].
          rewrite nth_overflow in C by exact Q. discriminate. }
        apply Nat.ltb_lt in Q. now rewrite Q.
Qed.

(** A reply for a transaction whose caller is waiting reaches that caller. *)
Lemma reply_delivered : forall n s i j id v c g, reachable n s -> sy_crash s = false ->
  sy_lock s = None ->
  nth_error (sy_thr s) j = Some (RecvWait id c g) ->
  nth_error (sy_thr s) i = Some (SendLock id v) ->
  (forall k, ~ In (EClosed k id g) (sy_log s)) ->
  exists s' t, run s [AStep i; AStep i; ADeliver i j] = Some s' /\
    sy_log s' = EDeliver i id g j id g v :: t /\
    nth_error (sy_thr s') i = Some PIdle /\ nth_error (sy_thr s') j = Some PIdle.
Proof.
  intros n s i j id v c g R C L Nj Ni NC.
  destruct (reach_inv n s R) as (I & J & K & _).
  assert (i <> j) as D by (intros ->; congruence).
  pose proof (k_found s K _ _ _ _ _ Nj eq_refl) as [Q1 [(o & T & Do)|[k Q]]];
    [|exfalso; eapply NC; exact Q].
  destruct (j_open s J _ _ _ T) as [(ch & E1 & E2)|(k & p & E1 & E2)].
  2:{ exfalso. assert (sy_lock s = Some k) as X
        by (apply (i_lock s I k p E1); destruct p; cbn in *; congruence).
      congruence. }
  assert (c = Some ch) as -> by congruence.
  cbn [run]. unfold exec at 1. rewrite C, Ni. cbn [step_of].
  rewrite L, (in_lookup _ _ _ (i_keys s I) T).
  unfold exec at 1; fields. rewrite C, (upd_same _ _ _ _ _ Ni). cbn [step_of].
  change (data_of (note (set_pc s i (SendEval id v o g)) (ESendFound i id v g)) o)
    with (data_of s o).
  rewrite E1.
  assert (forall p q, nth_error (upd (upd (sy_thr s) i p) i q) i = Some q) as U1.
  { intros p q. apply (upd_same _ _ _ _ p). apply (upd_same _ _ _ _ _ Ni). }
  unfold exec at 1; fields. rewrite C, U1.
  rewrite !upd_other by exact D. rewrite Nj, Nat.eqb_refl.
  unfold closed in *; fields. rewrite E2. cbn [negb andb].
  do 2 eexists. split; [reflexivity|]. fields. split; [reflexivity|].
  assert (forall p q r, nth_error (upd (upd (upd (sy_thr s) i p) i q) i r) i = Some r) as U2.
  { intros p q r. apply (upd_same _ _ _ _ q). apply U1. }
  split.
  - rewrite upd_other by auto. apply U2.
  - apply (upd_same _ _ _ _ (RecvWait id (Some ch) g)). rewrite !upd_other by exact D. exact Nj.
Qed.
