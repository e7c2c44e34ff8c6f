(** * When calls of the publish/subscribe manager can still return *)

Require Import List ZArith Bool Lia.
Require Import Verif.ModelTsm Verif.ModelUtsm Verif.SpecUtsm Verif.ProofsTsm Verif.ProofsUtsm Verif.ProofsUtsmProps.
Import ListNotations.
Open Scope Z_scope.

Lemma left_holds : forall p x, left_to p = Some x -> pub_holds p = true.
Proof. intros [] x; cbn; congruence. Qed.

Lemma in_range_iff : forall x id, in_range x id = true <-> sb_lo x <= id <= sb_hi x.
Proof. intros x id. unfold in_range. rewrite andb_true_iff, !Z.leb_le. tauto. Qed.

(** ** A doomed state stays one *)
Lemma doomed_exec : forall u a u' k j s, uinv u -> doomed u k j s -> uexec u a = Some u' ->
  doomed u' k j s /\ u_log u' = u_log u.
Proof.
  intros u a u' k9 j9 s9 I D H.
  destruct D as (p9 & id9 & l9 & x9 & st9 & N9 & T9 & S9 & O9 & R9 & Q9 & P9).
  pose proof (proj1 (a_lock u I k9 p9 N9) (left_holds p9 _ T9)) as L.
  assert (forall k p, nth_error (u_thr u) k = Some p -> pub_holds p = true -> k = k9) as HK.
  { intros k p N P. apply (a_lock u I k p N) in P. congruence. }
  assert (forall k p s, nth_error (u_thr u) k = Some p -> In s (owned p) -> s = s9 -> k = j9) as HJ.
  { intros k p s N W ->. destruct P9 as [P9|[P9 _]];
      (eapply (c_own u I); [exact N|exact P9|exact W|cbn; auto]). }
  assert (forall k p, nth_error (u_thr u) k = Some p -> k = j9 ->
     p = SubRem s9 st9 \/ p = SubTime s9 st9 /\ exists v r, p9 = PubSend id9 v s9 r) as PJ.
  { intros k p Nk ->. destruct P9 as [P9|[P9 X]]; rewrite P9 in Nk; injection Nk as <-; auto. }
  assert (k9 <> j9) as KJ by (intros ->; destruct (PJ _ _ N9 eq_refl) as [->|[-> _]]; discriminate).
  (* somebody else moves *)
  assert (forall k b p', nth_error (u_thr u) k = Some b -> k <> k9 -> k <> j9 ->
     forall objs y, nth_error objs s9 = Some y -> same_range x9 y -> sb_q y <> [] ->
     doomed (mkU (u_lock u) (u_subs u) objs (upd (u_thr u) k p') (u_log u)) k9 j9 s9) as MV.
  { intros k b p' Nk Dk Dj objs y Oy [Y1 Y2] Qy. exists p9, id9, l9, y, st9. cbn [u_thr u_objs].
    split; [rewrite upd_other by exact Dk; exact N9|]. split; [exact T9|]. split; [exact S9|].
    split; [exact Oy|]. split; [rewrite Y1, Y2; exact R9|]. split; [exact Qy|].
    rewrite upd_other by exact Dj. exact P9. }
  (* the publisher moves on without being served *)
  assert (forall p' l', left_to p' = Some (id9, l') -> In s9 l' ->
     (forall v r, p9 = PubSend id9 v s9 r -> p' = p9) ->
     forall objs y, nth_error objs s9 = Some y -> same_range x9 y -> sb_q y <> [] ->
     doomed (mkU (u_lock u) (u_subs u) objs (upd (u_thr u) k9 p') (u_log u)) k9 j9 s9) as PV.
  { intros p' l' T' S' KP objs y Oy [Y1 Y2] Qy. exists p', id9, l', y, st9. cbn [u_thr u_objs].
    split; [erewrite upd_same by exact N9; reflexivity|]. split; [exact T'|]. split; [exact S'|].
    split; [exact Oy|]. split; [rewrite Y1, Y2; exact R9|]. split; [exact Qy|].
    rewrite upd_other by exact KJ. destruct P9 as [P9|[P9 (v & r & X)]]; [left; exact P9|].
    right. split; [exact P9|]. rewrite (KP v r X). eauto. }
  assert (same_range x9 x9) as SR by (split; reflexivity).
  symmetry in N9, O9, L.
  uexec_cases H; symmetry in N9, O9, L; unfold u_set, u_setlock, u_setsubs, u_setobjs, u_setthr, u_note; ufields;
    try congruence;
    (* steps of the publisher *)
    try (assert (i = k9) as -> by (eapply HK; [exact Hth|reflexivity]);
         rewrite N9 in Hth; injection Hth as ->; cbn [left_to] in T9; injection T9 as -> <-);
    try (split; [|reflexivity]).
  all: try (apply (MV i _ _ Hth) with (y := x9); [intros ->; rewrite N9 in Hth; injection Hth as ->; discriminate
     |intros W; destruct (PJ _ _ Hth W) as [?|[? _]]; discriminate|exact O9|exact SR|exact Q9]).
  - (* VSpawn *)
    exists p9, id9, l9, x9, st9. cbn [u_thr u_objs].
    split; [rewrite nth_error_app1; [exact N9|apply nth_error_Some; congruence]|].
    split; [exact T9|]. split; [exact S9|]. split; [exact O9|]. split; [exact R9|]. split; [exact Q9|].
    destruct P9 as [P9|[P9 X]]; [left|right; split; [|exact X]];
      (rewrite nth_error_app1; [exact P9|apply nth_error_Some; congruence]).
  - destruct S9.
  - eapply PV; [reflexivity|exact S9|intros; discriminate|exact O9|exact SR|exact Q9].
  - destruct S9 as [->|S9].
    + assert (s = x9) as -> by congruence. apply in_range_iff in R9. congruence.
    + eapply PV; [reflexivity|exact S9|intros; discriminate|exact O9|exact SR|exact Q9].
  - destruct (Nat.eq_dec s s9) as [->|Ds].
    + assert (s0 = x9) as -> by congruence.
      eapply PV; [reflexivity|exact S9|intros; discriminate
        |erewrite upd_same by exact O9; reflexivity|split; reflexivity|exact Q9].
    + eapply PV; [reflexivity|exact S9|intros; discriminate
        |rewrite upd_other by exact Ds; exact O9|exact SR|exact Q9].
  - destruct (Nat.eq_dec s s9) as [->|Ds].
    + assert (s0 = x9) as -> by congruence. destruct (sb_q x9); [congruence|]. discriminate.
    + destruct S9 as [->|S9]; [congruence|].
      eapply PV; [reflexivity|exact S9|intros v0 r0 X; injection X; congruence
        |rewrite upd_other by exact Ds; exact O9|exact SR|exact Q9].
  - destruct (Nat.eq_dec s s9) as [->|Ds].
    + assert (s0 = x9) as -> by congruence.
      eapply PV; [reflexivity|exact S9|intros; discriminate
        |erewrite upd_same by exact O9; reflexivity|split; reflexivity|exact Q9].
    + eapply PV; [reflexivity|exact S9|intros; discriminate
        |rewrite upd_other by exact Ds; exact O9|exact SR|exact Q9].
  - apply (MV i _ _ Hth) with (y := x9); [intros ->; rewrite N9 in Hth; injection Hth as ->; discriminate
     |intros W; destruct (PJ _ _ Hth W) as [?|[? _]]; discriminate| |exact SR|exact Q9].
    rewrite nth_error_app1 by (apply nth_error_Some; congruence). exact O9.
  - apply (MV i _ _ Hth) with (y := x9); [intros ->; rewrite N9 in Hth; injection Hth as ->; discriminate
     | |exact O9|exact SR|exact Q9].
    intros W. destruct (PJ _ _ Hth W) as [?|[X (v & r & Y)]]; [discriminate|].
    injection X as -> ->. assert (s0 = x9) as -> by congruence.
    assert (sb_lock x9 = Some k9) by (apply (b_lock u I s9 x9 O9 k9); exists p9; subst p9; auto).
    congruence.
  - assert (i <> j9) as Dj by (intros W; destruct (PJ _ _ Hth W) as [?|[? _]]; discriminate).
    apply (MV i _ _ Hth) with (y := x9); [intros ->; rewrite N9 in Hth; injection Hth as ->; discriminate
     |exact Dj| |exact SR|exact Q9].
    rewrite upd_other; [exact O9|]. intros ->. apply Dj. eapply HJ; [exact Hth|cbn; auto|reflexivity].
Qed.

Lemma doomed_forever : forall l u u' k j s, uinv u -> doomed u k j s -> urun u l = Some u' ->
  doomed u' k j s /\ u_log u' = u_log u.
Proof.
  induction l as [|a l IH]; intros u u' k j s I D H; cbn in H.
  - injection H as <-. auto.
  - destruct (uexec u a) as [v|] eqn:X; [|discriminate].
    destruct (doomed_exec u a v k j s I D X) as [D' Lg].
    destruct (IH v u' k j s (uexec_inv u a v I X) D' H) as [A B]. split; [exact A|congruence].
Qed.

(** ** Emptying a channel *)

(** Goroutines in their calls, some of them having received more. *)
Definition same_calls (u u' : usys) : Prop :=
  forall j p, nth_error (u_thr u) j = Some p -> nth_error (u_thr u') j = Some p \/
    exists s store more, receiving p = Some (s, store) /\ (forall st, p <> SubRem s st) /\
      (nth_error (u_thr u') j = Some (SubTime s (store ++ more)) \/ nth_error (u_thr u') j = Some (SubWait s (store ++ more))).

Lemma same_refl : forall u, same_calls u u.
Proof. intros u j p N. left. exact N. Qed.
Lemma same_trans : forall u v w, same_calls u v -> same_calls v w -> same_calls u w.
Proof.
  intros u v w A B j p N. destruct (A j p N) as [M|(s & st & m & R & D & M)]; [exact (B j p M)|].
  right. destruct M as [M|M]; destruct (B _ _ M) as [K|(s' & st' & m' & R' & D' & K)].
  - exists s, st, m. auto.
  - cbn in R'. injection R' as <- <-. exists s, st, (m ++ m'). rewrite app_assoc. auto.
  - exists s, st, m. auto.
  - cbn in R'. injection R' as <- <-. exists s, st, (m ++ m'). rewrite app_assoc. auto.
Qed.

Lemma obj_of : forall u s, uinv u -> In s (u_subs u) -> exists x, nth_error (u_objs u) s = Some x.
Proof.
  intros u s I W. apply (sub_in_range u s I) in W. destruct (nth_error (u_objs u) s) eqn:O; [eauto|].
  apply nth_error_None in O. lia.
Qed.

Definition inner (a : uaction) : Prop := match a with VSpawn | VCall _ _ => False | _ => True end.

(** The subscriber takes the value in its channel. *)
Lemma drain_wait : forall u j s store x v q, nth_error (u_thr u) j = Some (SubWait s store) ->
  nth_error (u_objs u) s = Some x -> sb_q x = v :: q ->
  exists u', uexec u (VRecv j) = Some u' /\ u_lock u' = u_lock u /\ u_subs u' = u_subs u /\ u_log u' = u_log u /\
    same_calls u u' /\ (forall i, i <> j -> nth_error (u_thr u') i = nth_error (u_thr u) i) /\
    nth_error (u_objs u') s = Some (mkSub (sb_lo x) (sb_hi x) q (sb_lock x)) /\
    (forall s', s' <> s -> nth_error (u_objs u') s' = nth_error (u_objs u) s').
Proof.
  intros u j s store x v q N O Q. cbn [uexec]. rewrite N, O, Q. eexists. split; [reflexivity|]. ufields.
  split; [reflexivity|]. split; [reflexivity|]. split; [reflexivity|]. split; [|split; [|split]].
  - intros i p Ni. destruct (Nat.eq_dec j i) as [<-|D]; [|left; ufields; rewrite upd_other by exact D; exact Ni].
    right. rewrite N in Ni. injection Ni as <-. exists s, store, [v]. split; [reflexivity|].
    split; [discriminate|]. left. ufields. erewrite upd_same by exact N. reflexivity.
  - intros i D. apply upd_other. congruence.
  - erewrite upd_same by exact O. reflexivity.
  - intros s' D. apply upd_other. congruence.
Qed.

Lemma drain_one : forall u s x, uinv u -> In s (u_subs u) -> nth_error (u_objs u) s = Some x ->
  sb_lock x = None -> (sb_q x = [] \/ forall j store, nth_error (u_thr u) j <> Some (SubRem s store)) ->
  exists l u', urun u l = Some u' /\ Forall inner l /\ u_lock u' = u_lock u /\ u_subs u' = u_subs u /\ u_log u' = u_log u /\
    same_calls u u' /\ (forall k, u_lock u = Some k -> nth_error (u_thr u') k = nth_error (u_thr u) k) /\
    (exists y, nth_error (u_objs u') s = Some y /\ sb_q y = [] /\ same_range x y /\ sb_lock y = sb_lock x) /\
    (forall s', s' <> s -> nth_error (u_objs u') s' = nth_error (u_objs u) s').
Proof.
  intros u s x I W O Lx C. destruct (sb_q x) as [|v q] eqn:Q.
  { exists [], u. split; [reflexivity|]. split; [constructor|]. repeat (split; [reflexivity|]).
    split; [apply same_refl|]. split; [reflexivity|]. split; [exists x; unfold same_range; auto|reflexivity]. }
  assert (q = []) as -> by (pose proof (f_cap u I s x O) as F; rewrite Q in F; destruct q; [reflexivity|cbn in F; unfold cap_q in F; lia]).
  destruct C as [C|C]; [discriminate|].
  destruct (proj1 (c_reg u I s) W) as (j & p & st & Nj & Rj).
  assert (forall k, u_lock u = Some k -> k <> j) as KJ.
  { intros k L ->. apply (a_lock u I j p Nj) in L. destruct p; discriminate. }
  assert (exists l0 u0, urun u l0 = Some u0 /\ Forall inner l0 /\ u_lock u0 = u_lock u /\ u_subs u0 = u_subs u /\ u_log u0 = u_log u /\
    same_calls u u0 /\ (forall i, i <> j -> nth_error (u_thr u0) i = nth_error (u_thr u) i) /\ u_objs u0 = u_objs u /\
    nth_error (u_thr u0) j = Some (SubWait s st)) as (l0 & u0 & R0 & F0 & A1 & A2 & A3 & A4 & A5 & A6 & A7).
  { destruct p; cbn in Rj; try discriminate; injection Rj as -> ->.
    - exists [VStep j]. eexists. cbn [urun uexec]. rewrite Nj. cbn [ustep]. rewrite O, Lx. split; [reflexivity|]. ufields.
      split; [repeat constructor|]. repeat (split; [reflexivity|]).
      split; [|split; [intros i D; apply upd_other; congruence|split; [reflexivity|erewrite upd_same by exact Nj; reflexivity]]].
      intros i p Ni. destruct (Nat.eq_dec j i) as [<-|D]; [|left; ufields; rewrite upd_other by exact D; exact Ni].
      right. rewrite Nj in Ni. injection Ni as <-. exists s, st, []. rewrite app_nil_r. split; [reflexivity|].
      split; [discriminate|]. right. ufields. erewrite upd_same by exact Nj. reflexivity.
    - exists [], u. split; [reflexivity|]. split; [constructor|]. repeat (split; [reflexivity|]).
      split; [apply same_refl|]. split; [reflexivity|]. split; [reflexivity|exact Nj].
    - now destruct (C j st). }
  rewrite <- A6 in O. destruct (drain_wait u0 j s st x v [] A7 O Q) as (u1 & X1 & B1 & B2 & B3 & B4 & B5 & B6 & B7).
  exists (l0 ++ [VRecv j]), u1. rewrite urun_app, R0. cbn [urun]. rewrite X1. split; [reflexivity|].
  split; [apply Forall_app; split; [exact F0|repeat constructor]|]. split; [congruence|]. split; [congruence|]. split; [congruence|].
  split; [eapply same_trans; eassumption|]. split.
  { intros k L. rewrite B5, A5 by (apply KJ; exact L). reflexivity. }
  split; [eexists; split; [exact B6|cbn; unfold same_range; cbn; auto]|]. intros s' D. rewrite B7, A6 by exact D. reflexivity.
Qed.

Lemma rem_back : forall u u' s j store, uinv u -> uinv u' -> same_calls u u' -> In s (u_subs u) ->
  nth_error (u_thr u') j = Some (SubRem s store) -> nth_error (u_thr u) j = Some (SubRem s store).
Proof.
  intros u u' s j store I I' SC W N. destruct (proj1 (c_reg u I s) W) as (i & p & st & Ni & Ri).
  assert (j = i) as ->.
  { destruct (SC i p Ni) as [M|(s' & st' & m & R' & _ & M)].
    - eapply (c_own u' I'); [exact N|exact M|cbn; auto|eapply recv_owned; exact Ri].
    - rewrite Ri in R'. injection R' as <- <-.
      destruct M as [M|M]; (eapply (c_own u' I'); [exact N|exact M|cbn; auto|cbn; auto]). }
  destruct (SC i p Ni) as [M|(s' & st' & m & R' & _ & [M|M])]; congruence.
Qed.

Lemma drain_all : forall id l u, uinv u -> (forall s, In s l -> In s (u_subs u)) ->
  (forall s x, In s l -> nth_error (u_objs u) s = Some x -> in_range x id = true ->
     sb_lock x = None /\ (sb_q x = [] \/ forall j store, nth_error (u_thr u) j <> Some (SubRem s store))) ->
  exists acts u', urun u acts = Some u' /\ Forall inner acts /\ u_lock u' = u_lock u /\ u_subs u' = u_subs u /\ u_log u' = u_log u /\
    same_calls u u' /\ (forall k, u_lock u = Some k -> nth_error (u_thr u') k = nth_error (u_thr u) k) /\
    (forall s x, nth_error (u_objs u) s = Some x -> exists y, nth_error (u_objs u') s = Some y /\ same_range x y /\
       sb_lock y = sb_lock x /\ (sb_q x = [] -> sb_q y = []) /\ (In s l -> in_range x id = true -> sb_q y = [])).
Proof.
  induction l as [|s l IH]; intros u I Sub C.
  - exists [], u. split; [reflexivity|]. split; [constructor|]. repeat (split; [reflexivity|]).
    split; [apply same_refl|]. split; [reflexivity|]. intros s x O. exists x. unfold same_range. cbn. tauto.
  - destruct (obj_of u s I (Sub s (or_introl eq_refl))) as [x O].
    destruct (in_range x id) eqn:IR.
    + destruct (C s x (or_introl eq_refl) O IR) as [Lx Cx].
      destruct (drain_one u s x I (Sub s (or_introl eq_refl)) O Lx Cx) as
        (a1 & u1 & R1 & F1 & A1 & A2 & A3 & A4 & A5 & (y1 & O1 & Q1 & SR1 & L1) & A6).
      pose proof (urun_inv _ _ _ I R1) as I1.
      destruct (IH u1 I1) as (a2 & u2 & R2 & F2 & B1 & B2 & B3 & B4 & B5 & B6).
      { intros s' W. rewrite A2. apply Sub. right. exact W. }
      { intros s' y' W O' IR'. destruct (Nat.eq_dec s' s) as [->|D].
        - assert (y' = y1) as -> by congruence. split; [congruence|left; exact Q1].
        - rewrite A6 in O' by exact D. destruct (C s' y' (or_intror W) O' IR') as [K1 [K2|K2]]; [auto|].
          split; [exact K1|]. right. intros j st N. apply (K2 j st).
          eapply rem_back; [exact I|exact I1|exact A4|apply Sub; right; exact W|exact N]. }
      exists (a1 ++ a2), u2. rewrite urun_app, R1. split; [exact R2|].
      split; [apply Forall_app; auto|]. split; [congruence|]. split; [congruence|]. split; [congruence|].
      split; [eapply same_trans; eassumption|]. split.
      { intros k L. rewrite B5 by congruence. apply A5. exact L. }
      intros s' x' O'. destruct (Nat.eq_dec s' s) as [->|D].
      * assert (x' = x) as -> by congruence. destruct (B6 s y1 O1) as (y & Oy & [Y1 Y2] & Y3 & Y4 & Y5).
        destruct SR1 as [Z1 Z2]. exists y. split; [exact Oy|]. split; [split; congruence|]. split; [congruence|].
        split; intros; apply Y4; exact Q1.
      * rewrite <- (A6 s' D) in O'. destruct (B6 s' x' O') as (y & Oy & Y).
        exists y. split; [exact Oy|]. destruct Y as (Y1 & Y2 & Y3 & Y4). repeat (split; [assumption|]).
        intros [W|W]; [congruence|]. apply Y4. exact W.
    + destruct (IH u I) as (a2 & u2 & R2 & F2 & B1 & B2 & B3 & B4 & B5 & B6).
      { intros s' W. apply Sub. right. exact W. }
      { intros s' y' W. apply C. right. exact W. }
      exists a2, u2. repeat (split; [assumption|]). intros s' x' O'.
      destruct (B6 s' x' O') as (y & Oy & Y1 & Y2 & Y3 & Y4). exists y. repeat (split; [assumption|]).
      intros [W|W]; [|apply Y4; exact W]. subst s'. assert (x' = x) as -> by congruence. congruence.
Qed.

(** ** The publication under way comes to its end *)
Lemma run_steps_last : forall n u u' k, urun u (repeat (VStep k) (S n)) = Some u' ->
  exists um, urun u (repeat (VStep k) n) = Some um /\ uexec um (VStep k) = Some u'.
Proof.
  induction n as [|n IH]; intros u u' k H.
  - cbn [repeat urun] in *. destruct (uexec u (VStep k)) as [v|] eqn:X; [|discriminate]. exists u. split; [reflexivity|congruence].
  - cbn [repeat urun] in H |- *. destruct (uexec u (VStep k)) as [v|] eqn:X; [|discriminate].
    apply IH. exact H.
Qed.

Lemma step_log : forall u a u', uexec u a = Some u' -> u_log u' = u_log u \/ exists e, u_log u' = e :: u_log u.
Proof. intros u a u' H. uexec_cases H; ufields; eauto. Qed.
Lemma run_log : forall l u u', urun u l = Some u' -> exists new, u_log u' = new ++ u_log u.
Proof.
  induction l as [|a l IH]; intros u u' H; cbn in H.
  - injection H as <-. exists []. reflexivity.
  - destruct (uexec u a) as [v|] eqn:X; [|discriminate]. destruct (IH v u' H) as [new E].
    destruct (step_log u a v X) as [F|[e F]]; rewrite F in E; [exists new; exact E|].
    exists (new ++ [e]). rewrite <- app_assoc. exact E.
Qed.

(** [outcome]: the publication of goroutine [k] is over *)
Definition freed (u : usys) (k : nat) : Prop :=
  exists acts um u', urun u acts = Some um /\ Forall inner acts /\ u_log um = u_log u /\
    uexec um (VStep k) = Some u' /\ u_log u' = UPubRet k :: u_log u /\ u_lock u' = None /\
    u_subs u' = u_subs u /\ nth_error (u_thr u') k = Some UIdle /\
    (forall j p, j <> k -> nth_error (u_thr u) j = Some p -> exists p', nth_error (u_thr u') j = Some p' /\
       (p' = p \/ exists s store more, receiving p = Some (s, store) /\ (forall st, p <> SubRem s st) /\
          (p' = SubTime s (store ++ more) \/ p' = SubWait s (store ++ more)))).

Lemma freed_loop : forall u k id v l, uinv u -> nth_error (u_thr u) k = Some (PubLoop id v l) ->
  (forall j s, ~ doomed u k j s) -> freed u k.
Proof.
  intros u k id v l I N ND. pose proof (proj1 (a_lock u I k _ N) eq_refl) as L.
  destruct (d_todo u I _ _ _ _ _ N eq_refl) as [pre E].
  assert (forall s, In s l -> In s (u_subs u)) as Sub by (intros s W; rewrite E; apply in_or_app; auto).
  destruct (drain_all id l u I Sub) as (a1 & u1 & R1 & F1 & A1 & A2 & A3 & A4 & A5 & A6).
  { intros s x W O IR. split.
    - destruct (sb_lock x) as [m|] eqn:Lx; [|reflexivity].
      destruct (sub_lock_holder u s x m I O Lx) as (Lm & q & Nm & Hm).
      assert (m = k) as -> by congruence. rewrite N in Nm. injection Nm as <-. discriminate.
    - destruct (sb_q x) as [|v0 q0] eqn:Q; [left; reflexivity|]. right. intros j st Nj. apply (ND j s).
      exists (PubLoop id v l), id, l, x, st. split; [exact N|]. split; [reflexivity|]. split; [exact W|].
      split; [exact O|]. split; [apply in_range_iff; exact IR|]. split; [congruence|]. left. exact Nj. }
  pose proof (urun_inv _ _ _ I R1) as I1.
  assert (nth_error (u_thr u1) k = Some (PubLoop id v l)) as N1 by (rewrite A5 by exact L; exact N).
  assert (NoDup l) as NDl.
  { pose proof (c_nodup u I) as Q. rewrite E in Q. clear -Q. induction pre; [exact Q|]. inversion Q. auto. }
  destruct (publish_loop l u1 k id v I1 N1 NDl) as (n & u2 & R2 & B1 & B2 & B3 & B4 & B5 & B6).
  { intros s y W O IR. destruct (obj_of u s I (Sub s W)) as [x Ox]. destruct (A6 s x Ox) as (y' & Oy & SR & _ & _ & Y).
    assert (y' = y) as -> by congruence. apply Y; [exact W|]. rewrite <- (range_same x y id SR). exact IR. }
  destruct n as [|n]; [cbn in R2; injection R2 as <-; congruence|].
  destruct (run_steps_last n u1 u2 k R2) as (um & Rm & Xm).
  exists (a1 ++ repeat (VStep k) n), um, u2. rewrite urun_app, R1. split; [exact Rm|].
  split; [apply Forall_app; split; [exact F1|apply Forall_forall; intros a W; apply repeat_spec in W; subst a; exact Logic.I]|].
  split.
  { destruct (run_log _ _ _ Rm) as [new Em]. destruct (step_log _ _ _ Xm) as [Es|[e Es]].
    - exfalso. rewrite Es in B4.
      (* the last step is the return *)
      assert (urun u1 (repeat (VStep k) n) = Some um) as Rm' by exact Rm. clear Rm'.
      cbn [uexec] in Xm. destruct (nth_error (u_thr um) k) as [p|] eqn:Np; [|discriminate].
      assert (nth_error (u_thr u2) k = Some UIdle) as B1' by exact B1.
      pose proof (urun_inv _ _ _ I1 Rm) as Im.
      unfold ustep in Xm; destruct p; try discriminate;
        repeat match type of Xm with
         | (if ?b then _ else _) = Some _ => destruct b; try discriminate Xm
         | match ?x with _ => _ end = Some _ => destruct x; try discriminate Xm
         end; injection Xm as <-; ufields; try (erewrite upd_same in B1' by exact Np; discriminate B1');
        apply (f_equal (@length uevent)) in Es; cbn in Es; lia.
    - rewrite Es, Em in B4. destruct new as [|e0 new]; [cbn in Em; congruence|].
      exfalso. apply (f_equal (@length uevent)) in B4. cbn in B4. rewrite app_length in B4. lia. }
  split; [exact Xm|]. split; [congruence|]. split; [exact B2|]. split; [congruence|]. split; [exact B1|].
  intros j p D Nj. rewrite B5 by exact D. destruct (A4 j p Nj) as [M|(s & st & m & R & Dr & M)].
  - exists p. auto.
  - destruct M as [M|M]; eexists; (split; [exact M|]); right; exists s, st, m; auto.
Qed.

Lemma freed_step : forall u a u1 k, inner a -> uexec u a = Some u1 -> u_log u1 = u_log u -> u_subs u1 = u_subs u ->
  (forall j p, j <> k -> nth_error (u_thr u) j = Some p -> nth_error (u_thr u1) j = Some p \/
    exists s store more, receiving p = Some (s, store) /\ (forall st, p <> SubRem s st) /\
      (nth_error (u_thr u1) j = Some (SubTime s (store ++ more)) \/ nth_error (u_thr u1) j = Some (SubWait s (store ++ more)))) ->
  freed u1 k -> freed u k.
Proof.
  intros u a u1 k Ia X Lg Sb Ot (acts & um & u' & R & F & Lm & Xm & L' & Lk & S' & Nk & O').
  exists (a :: acts), um, u'. cbn [urun]. rewrite X. split; [exact R|]. split; [constructor; assumption|].
  split; [congruence|]. split; [exact Xm|]. split; [congruence|]. split; [exact Lk|]. split; [congruence|].
  split; [exact Nk|]. intros j p D Nj. destruct (Ot j p D Nj) as [M|(s & st & m & Rc & Dr & M)].
  - exact (O' j p D M).
  - destruct M as [M|M]; destruct (O' j _ D M) as (p' & Np & [->|(s2 & st2 & m2 & Rc2 & _ & K)]);
      eexists; (split; [exact Np|]); right.
    1,3: exists s, st, m; auto.
    all: cbn in Rc2; injection Rc2 as <- <-; exists s, st, (m ++ m2); rewrite app_assoc; auto.
Qed.

Lemma freed_run : forall acts u u1 k, Forall inner acts -> urun u acts = Some u1 -> u_log u1 = u_log u -> u_subs u1 = u_subs u ->
  same_calls u u1 -> freed u1 k -> freed u k.
Proof.
  intros acts u u1 k F R Lg Sb SC (acts' & um & u' & R' & F' & Lm & Xm & L' & Lk & S' & Nk & O').
  exists (acts ++ acts'), um, u'. rewrite urun_app, R. split; [exact R'|]. split; [apply Forall_app; auto|].
  split; [congruence|]. split; [exact Xm|]. split; [congruence|]. split; [exact Lk|]. split; [congruence|].
  split; [exact Nk|]. intros j p D Nj. destruct (SC j p Nj) as [M|(s & st & m & Rc & Dr & M)].
  - exact (O' j p D M).
  - destruct M as [M|M]; destruct (O' j _ D M) as (p' & Np & [->|(s2 & st2 & m2 & Rc2 & _ & K)]);
      eexists; (split; [exact Np|]); right.
    1,3: exists s, st, m; auto.
    all: cbn in Rc2; injection Rc2 as <- <-; exists s, st, (m ++ m2); rewrite app_assoc; auto.
Qed.

(** steps of the publisher that change nothing for the others *)
Lemma freed_self : forall u u1 k, uexec u (VStep k) = Some u1 -> u_log u1 = u_log u -> u_subs u1 = u_subs u ->
  (forall j, j <> k -> nth_error (u_thr u1) j = nth_error (u_thr u) j) -> freed u1 k -> freed u k.
Proof.
  intros u u1 k X Lg Sb Ot. apply (freed_step u (VStep k) u1 k Logic.I X Lg Sb).
  intros j p D N. left. rewrite Ot by exact D. exact N.
Qed.

Lemma freed_unlock : forall u k id v s rest, uinv u -> nth_error (u_thr u) k = Some (PubUnlock id v s rest) ->
  (forall j s', ~ doomed u k j s') -> freed u k.
Proof.
  intros u k id v s rest I N ND.
  destruct (obj_of u s I (d_held u I _ _ _ N eq_refl)) as [x O].
  destruct (uexec u (VStep k)) as [u1|] eqn:X; [|cbn in X; rewrite N in X; cbn in X; rewrite O in X; discriminate].
  pose proof (uexec_inv _ _ _ I X) as I1.
  cbn [uexec] in X. rewrite N in X. cbn [ustep] in X. rewrite O in X.
  assert (uexec u (VStep k) = Some u1) as X' by (cbn [uexec]; rewrite N; cbn [ustep]; rewrite O; exact X).
  assert (nth_error (u_thr u1) k = Some (PubLoop id v rest)) as N1 by (injection X as <-; ufields; erewrite upd_same by exact N; reflexivity).
  apply (freed_self u u1 k X'); try (injection X as <-; ufields; reflexivity).
  { injection X as <-. ufields. intros j D. apply upd_other. congruence. }
  apply (freed_loop u1 k id v rest I1 N1). intros j s' (p & id' & l & y & st & Np & T & W & Oy & R & Q & P).
  rewrite N1 in Np. injection Np as <-. cbn in T. injection T as <- <-.
  destruct P as [P|(_ & v0 & r0 & P)]; [|discriminate].
  assert (j <> k) as Dj by (intros ->; congruence).
  assert (exists y0, nth_error (u_objs u) s' = Some y0 /\ same_range y0 y /\ sb_q y0 = sb_q y) as (y0 & O0 & [Z1 Z2] & Q0).
  { injection X as <-. ufields. destruct (Nat.eq_dec s s') as [<-|D].
    - erewrite upd_same in Oy by exact O. injection Oy as <-. exists x. unfold same_range. auto.
    - rewrite upd_other in Oy by exact D. exists y. unfold same_range. auto. }
  apply (ND j s'). exists (PubUnlock id v s rest), id, rest, y0, st. split; [exact N|]. split; [reflexivity|].
  split; [exact W|]. split; [exact O0|]. split; [lia|]. split; [congruence|]. left.
  injection X as <-. ufields. rewrite upd_other in P by congruence. exact P.
Qed.

Lemma freed_send_empty : forall u k id v s rest x, uinv u -> nth_error (u_thr u) k = Some (PubSend id v s rest) ->
  nth_error (u_objs u) s = Some x -> sb_q x = [] ->
  (forall j s', ~ doomed u k j s') -> freed u k.
Proof.
  intros u k id v s rest x I N O Q ND.
  destruct (uexec u (VStep k)) as [u1|] eqn:X; [|cbn in X; rewrite N in X; cbn in X; rewrite O, Q in X; discriminate].
  pose proof (uexec_inv _ _ _ I X) as I1. pose proof X as X'.
  cbn [uexec] in X. rewrite N in X. cbn [ustep] in X. rewrite O, Q in X. cbn [length Nat.ltb Nat.leb cap_q] in X.
  assert (nth_error (u_thr u1) k = Some (PubUnlock id v s rest)) as N1 by (injection X as <-; ufields; erewrite upd_same by exact N; reflexivity).
  apply (freed_self u u1 k X'); try (injection X as <-; ufields; reflexivity).
  { injection X as <-. ufields. intros j D. apply upd_other. congruence. }
  apply (freed_unlock u1 k id v s rest I1 N1). intros j s' (p & id' & l & y & st & Np & T & W & Oy & R & Qy & P).
  rewrite N1 in Np. injection Np as <-. cbn in T. injection T as <- <-.
  destruct P as [P|(_ & v0 & r0 & P)]; [|discriminate].
  assert (j <> k) as Dj by (intros ->; congruence).
  assert (s <> s') as Ds.
  { intros <-. destruct (d_todo u I _ _ _ _ _ N eq_refl) as [pre E]. pose proof (c_nodup u I) as Nd. rewrite E in Nd.
    apply NoDup_remove_2 in Nd. apply Nd, in_or_app. right. exact W. }
  apply (ND j s'). exists (PubSend id v s rest), id, (s :: rest), y, st. split; [exact N|]. split; [reflexivity|].
  split; [right; exact W|]. injection X as <-. ufields. rewrite upd_other in Oy by exact Ds.
  split; [exact Oy|]. split; [exact R|]. split; [exact Qy|]. left. rewrite upd_other in P by congruence. exact P.
Qed.

Lemma freed_all : forall u k, uinv u -> u_lock u = Some k -> (forall j s, ~ doomed u k j s) -> freed u k.
Proof.
  intros u k I L ND. destruct (a_held u I k L) as [p N].
  pose proof (proj2 (a_lock u I k p N) L) as H. destruct p; try discriminate.
  - exact (freed_loop u k id v rest I N ND).
  - (* PubSub *)
    destruct (d_todo u I _ _ _ _ _ N eq_refl) as [pre E].
    assert (In s (u_subs u)) as W by (rewrite E; apply in_or_app; right; left; reflexivity).
    destruct (obj_of u s I W) as [x O].
    pose proof (d_at u I _ _ _ _ _ N eq_refl O) as IR.
    assert (sb_lock x = None) as Lx.
    { destruct (sb_lock x) as [m|] eqn:Lx; [|reflexivity].
      destruct (sub_lock_holder u s x m I O Lx) as (Lm & q & Nm & Hm).
      assert (m = k) as -> by congruence. rewrite N in Nm. injection Nm as <-. discriminate. }
    destruct (drain_one u s x I W O Lx) as (a1 & u1 & R1 & F1 & A1 & A2 & A3 & A4 & A5 & (y1 & O1 & Q1 & SR1 & L1) & A6).
    { destruct (sb_q x) as [|v0 q0] eqn:Q; [left; reflexivity|]. right. intros j st Nj. apply (ND j s).
      exists (PubSub id v s rest), id, (s :: rest), x, st. split; [exact N|]. split; [reflexivity|]. split; [left; reflexivity|].
      split; [exact O|]. split; [apply in_range_iff; exact IR|]. split; [congruence|]. left. exact Nj. }
    apply (freed_run a1 u u1 k F1 R1 A3 A2 A4). pose proof (urun_inv _ _ _ I R1) as I1.
    assert (nth_error (u_thr u1) k = Some (PubSub id v s rest)) as N1 by (rewrite A5 by exact L; exact N).
    destruct (uexec u1 (VStep k)) as [u2|] eqn:X; [|cbn in X; rewrite N1 in X; cbn in X; rewrite O1, L1, Lx in X; discriminate].
    pose proof (uexec_inv _ _ _ I1 X) as I2. pose proof X as X'.
    cbn [uexec] in X. rewrite N1 in X. cbn [ustep] in X. rewrite O1, L1, Lx in X.
    assert (nth_error (u_thr u2) k = Some (PubSend id v s rest)) as N2 by (injection X as <-; ufields; erewrite upd_same by exact N1; reflexivity).
    apply (freed_self u1 u2 k X'); try (injection X as <-; ufields; reflexivity).
    { injection X as <-. ufields. intros j D. apply upd_other. congruence. }
    assert (nth_error (u_objs u2) s = Some (mkSub (sb_lo y1) (sb_hi y1) (sb_q y1) (Some k))) as O2
      by (injection X as <-; ufields; erewrite upd_same by exact O1; reflexivity).
    apply (freed_send_empty u2 k id v s rest _ I2 N2 O2 Q1).
    intros j s' (p & id' & l & y & st & Np & T & W' & Oy & R & Qy & P).
    rewrite N2 in Np. injection Np as <-. cbn in T. injection T as <- <-.
    destruct (Nat.eq_dec s s') as [<-|Ds]; [rewrite O2 in Oy; injection Oy as <-; now apply Qy|].
    destruct P as [P|(_ & v0 & r0 & P)]; [|congruence].
    assert (j <> k) as Dj by (intros ->; congruence).
    apply (ND j s'). exists (PubSub id v s rest), id, (s :: rest), y, st. split; [exact N|]. split; [reflexivity|].
    split; [exact W'|]. injection X as <-. ufields. rewrite upd_other in Oy by exact Ds. rewrite A6 in Oy by congruence.
    split; [exact Oy|]. split; [exact R|]. split; [exact Qy|]. left. rewrite upd_other in P by congruence.
    eapply rem_back; [exact I|exact I1|exact A4| |exact P].
    rewrite E. apply in_or_app. right. exact W'.
  - (* PubSend *)
    destruct (obj_of u s I (d_held u I _ _ _ N eq_refl)) as [x O].
    destruct (sb_q x) as [|v0 q0] eqn:Q; [exact (freed_send_empty u k id v s rest x I N O Q ND)|].
    assert (q0 = []) as -> by (pose proof (f_cap u I s x O) as F; rewrite Q in F; destruct q0; [reflexivity|cbn in F; unfold cap_q in F; lia]).
    pose proof (d_held u I _ _ _ N eq_refl) as W. pose proof (d_at u I _ _ _ _ _ N eq_refl O) as IR.
    destruct (proj1 (c_reg u I s) W) as (j & p & st & Nj & Rj).
    assert (forall q, q = SubRem s st \/ q = SubTime s st -> p <> q) as NP.
    { intros q Hq ->. apply (ND j s). exists (PubSend id v s rest), id, (s :: rest), x, st. split; [exact N|]. split; [reflexivity|].
      split; [left; reflexivity|]. split; [exact O|]. split; [apply in_range_iff; exact IR|]. split; [congruence|].
      destruct Hq as [->| ->]; [left; exact Nj|]. right. split; [exact Nj|]. eauto. }
    destruct p; cbn in Rj; try discriminate; injection Rj as -> ->.
    + now destruct (NP (SubTime s st) (or_intror eq_refl)).
    + destruct (drain_wait u j s st x v0 [] Nj O Q) as (u1 & X1 & B1 & B2 & B3 & B4 & B5 & B6 & B7).
      assert (k <> j) as Dk by (intros ->; congruence).
      apply (freed_step u (VRecv j) u1 k Logic.I X1 B3 B2); [intros i p D Ni; exact (B4 i p Ni)|].
      pose proof (uexec_inv _ _ _ I X1) as I1.
      assert (nth_error (u_thr u1) k = Some (PubSend id v s rest)) as N1 by (rewrite B5 by exact Dk; exact N).
      apply (freed_send_empty u1 k id v s rest _ I1 N1 B6 eq_refl).
      intros j' s' (p & id' & l & y & st' & Np & T & W' & Oy & R & Qy & P).
      rewrite N1 in Np. injection Np as <-. cbn in T. injection T as <- <-.
      destruct (Nat.eq_dec s s') as [<-|Ds]; [rewrite B6 in Oy; injection Oy as <-; now apply Qy|].
      destruct P as [P|(_ & v1 & r0 & P)]; [|congruence].
      apply (ND j' s'). exists (PubSend id v s rest), id, (s :: rest), y, st'. split; [exact N|]. split; [reflexivity|].
      split; [exact W'|]. rewrite B7 in Oy by congruence. split; [exact Oy|]. split; [exact R|]. split; [exact Qy|]. left.
      destruct (d_todo u I _ _ _ _ _ N eq_refl) as [pre E].
      eapply rem_back; [exact I|exact I1|exact B4| |exact P]. rewrite E. apply in_or_app. right. exact W'.
    + now destruct (NP (SubRem s st) (or_introl eq_refl)).
  - exact (freed_unlock u k id v s rest I N ND).
Qed.

(** ** A Subscribe ends while the mutex is free *)
Definition subscribing (p : upc) : bool :=
  match p with SubNew _ _ | SubReg _ _ _ | SubTime _ _ | SubWait _ _ | SubRem _ _ => true | _ => false end.

(** by its own steps; [mine]: registration only *)
Definition ended (u : usys) (i : nat) : Prop :=
  exists acts um u' new s store, urun u acts = Some um /\ Forall (fun a => a = VStep i \/ a = VTimeout i) acts /\
    u_log um = new ++ u_log u /\ (forall e, In e new -> exists s lo hi, e = USub i s lo hi) /\
    uexec um (VStep i) = Some u' /\ u_log u' = URet i s store :: new ++ u_log u /\ u_lock u' = None /\
    nth_error (u_thr u') i = Some UIdle /\ (forall j, j <> i -> nth_error (u_thr u') j = nth_error (u_thr u) j).

Lemma ended_rem : forall u i s store, u_lock u = None -> nth_error (u_thr u) i = Some (SubRem s store) -> ended u i.
Proof.
  intros u i s store L N. exists [], u. eexists. exists [], s, store. split; [reflexivity|]. split; [constructor|].
  split; [reflexivity|]. split; [intros e []|]. split; [cbn [uexec]; rewrite N; cbn [ustep]; rewrite L; reflexivity|].
  ufields. split; [reflexivity|]. split; [exact L|]. split; [erewrite upd_same by exact N; reflexivity|].
  intros j D. apply upd_other. congruence.
Qed.
Lemma ended_step : forall u a u1 i, a = VStep i \/ a = VTimeout i -> uexec u a = Some u1 ->
  (u_log u1 = u_log u \/ exists s lo hi, u_log u1 = USub i s lo hi :: u_log u) ->
  (forall j, j <> i -> nth_error (u_thr u1) j = nth_error (u_thr u) j) -> ended u1 i -> ended u i.
Proof.
  intros u a u1 i Ha X Lg Ot (acts & um & u' & new & s & st & R & F & Lm & Nw & Xm & L' & Lk & Nk & O').
  exists (a :: acts), um, u'. cbn [urun]. rewrite X.
  destruct Lg as [Lg|(s0 & lo & hi & Lg)]; rewrite Lg in *.
  - exists new, s, st. split; [exact R|]. split; [constructor; assumption|]. split; [exact Lm|]. split; [exact Nw|].
    split; [exact Xm|]. split; [exact L'|]. split; [exact Lk|]. split; [exact Nk|].
    intros j D. rewrite O', Ot by exact D. reflexivity.
  - exists (new ++ [USub i s0 lo hi]), s, st. rewrite <- app_assoc. cbn [app]. split; [exact R|]. split; [constructor; assumption|].
    split; [exact Lm|]. split.
    { intros e W. apply in_app_or in W. destruct W as [W|[<-|[]]]; [exact (Nw e W)|eauto]. }
    split; [exact Xm|]. split; [exact L'|]. split; [exact Lk|]. split; [exact Nk|].
    intros j D. rewrite O', Ot by exact D. reflexivity.
Qed.
Lemma ended_wait : forall u i s store, u_lock u = None -> nth_error (u_thr u) i = Some (SubWait s store) -> ended u i.
Proof.
  intros u i s store L N. eapply (ended_step u (VTimeout i)); [auto|cbn [uexec]; rewrite N; reflexivity|left; reflexivity| |].
  - ufields. intros j D. apply upd_other. congruence.
  - eapply ended_rem; [exact L|]. ufields. erewrite upd_same by exact N. reflexivity.
Qed.
Lemma ended_time : forall u i s store, uinv u -> u_lock u = None -> nth_error (u_thr u) i = Some (SubTime s store) -> ended u i.
Proof.
  intros u i s store I L N.
  assert (In s (u_subs u)) as W by (apply (c_reg u I); eexists _, _, _; split; [exact N|reflexivity]).
  destruct (obj_of u s I W) as [x O].
  assert (sb_lock x = None) as Lx.
  { destruct (sb_lock x) as [m|] eqn:Lx; [|reflexivity]. destruct (sub_lock_holder u s x m I O Lx) as (Lm & _). congruence. }
  eapply (ended_step u (VStep i)); [auto|cbn [uexec]; rewrite N; cbn [ustep]; rewrite O, Lx; reflexivity|left; reflexivity| |].
  - ufields. intros j D. apply upd_other. congruence.
  - eapply ended_wait; [exact L|]. ufields. erewrite upd_same by exact N. reflexivity.
Qed.
Lemma ended_all : forall u i p, uinv u -> u_lock u = None -> nth_error (u_thr u) i = Some p -> subscribing p = true -> ended u i.
Proof.
  assert (forall u i lo hi s, uinv u -> u_lock u = None -> nth_error (u_thr u) i = Some (SubReg lo hi s) -> ended u i) as RG.
  { intros u i lo hi s I L N.
    assert (exists x, nth_error (u_objs u) s = Some x) as [x O].
    { pose proof (c_range u I i _ s N (or_introl eq_refl)) as C. destruct (nth_error (u_objs u) s) eqn:O; [eauto|].
      apply nth_error_None in O. lia. }
    destruct (uexec u (VStep i)) as [u1|] eqn:X; [|cbn in X; rewrite N in X; cbn in X; rewrite L, O in X; discriminate].
    pose proof (uexec_inv _ _ _ I X) as I1. pose proof X as X'. cbn in X. rewrite N in X. cbn [ustep] in X. rewrite L, O in X. injection X as <-.
    eapply (ended_step u (VStep i)); [auto|exact X'|right; ufields; eauto| |].
    - ufields. intros j D. apply upd_other. congruence.
    - eapply ended_time; [exact I1|exact L|]. ufields. erewrite upd_same by exact N. reflexivity. }
  intros u i p I L N S. destruct p; try discriminate.
  - destruct (uexec u (VStep i)) as [u1|] eqn:X; [|cbn in X; rewrite N in X; discriminate].
    pose proof (uexec_inv _ _ _ I X) as I1. pose proof X as X'. cbn in X. rewrite N in X. injection X as <-.
    eapply (ended_step u (VStep i)); [auto|exact X'|left; reflexivity| |].
    + ufields. intros j D. apply upd_other. congruence.
    + eapply RG; [exact I1|exact L|]. ufields. erewrite upd_same by exact N. reflexivity.
  - exact (RG u i lo hi s I L N).
  - exact (ended_time u i s store I L N).
  - exact (ended_wait u i s store L N).
  - exact (ended_rem u i s store L N).
Qed.

(** ** Deciding whether a state is doomed *)
Lemma or_list : forall A (P : A -> Prop) l, (forall x, P x \/ ~ P x) ->
  (exists x, In x l /\ P x) \/ (forall x, In x l -> ~ P x).
Proof.
  intros A P l D. induction l as [|a l IH]; [right; intros x []|].
  destruct (D a) as [H|H]; [left; exists a; cbn; auto|]. destruct IH as [(x & W & Px)|N]; [left; exists x; cbn; auto|].
  right. intros x [<-|W]; auto.
Qed.
Lemma or_thread : forall (P : nat -> Prop) (thr : list upc), (forall j, P j \/ ~ P j) ->
  (forall j, P j -> nth_error thr j <> None) -> (exists j, P j) \/ (forall j, ~ P j).
Proof.
  intros P thr D B. destruct (or_list nat P (seq 0 (length thr)) D) as [(j & _ & H)|N]; [left; eauto|].
  right. intros j H. apply (N j); [|exact H]. apply in_seq. split; [lia|]. apply B, nth_error_Some in H. lia.
Qed.
Lemma doomed_at : forall u k j s, doomed u k j s \/ ~ doomed u k j s.
Proof.
  intros u k j s.
  destruct (nth_error (u_thr u) k) as [p|] eqn:N; [|right; intros (p & id & l & x & st & Np & _); congruence].
  destruct (left_to p) as [[id l]|] eqn:T; [|right; intros (p' & id & l & x & st & Np & T' & _); congruence].
  destruct (in_dec Nat.eq_dec s l) as [W|W]; [|right; intros (p' & id' & l' & x & st & Np & T' & W' & _); congruence].
  destruct (nth_error (u_objs u) s) as [x|] eqn:O; [|right; intros (p' & id' & l' & x & st & Np & T' & W' & O' & _); congruence].
  destruct (in_range x id) eqn:IR; [|right; intros (p' & id' & l' & x' & st & Np & T' & W' & O' & R & _);
    assert (x' = x) as -> by congruence; assert (id' = id) as -> by congruence; apply in_range_iff in R; congruence].
  destruct (sb_q x) as [|v q] eqn:Q; [right; intros (p' & id' & l' & x' & st & Np & T' & W' & O' & R & Q' & _); congruence|].
  assert (forall P : Prop, (forall st, nth_error (u_thr u) j <> Some (SubRem s st)) ->
    (forall st id v r, nth_error (u_thr u) j = Some (SubTime s st) -> p <> PubSend id v s r) -> P \/ ~ doomed u k j s) as NO.
  { intros P A B. right. intros (p' & id' & l' & x' & st & Np & _ & _ & _ & _ & _ & [C|(C & v' & r & E)]); [exact (A st C)|].
    assert (p' = p) as -> by congruence. exact (B st id' v' r C E). }
  assert ((exists st, nth_error (u_thr u) j = Some (SubRem s st) \/
      nth_error (u_thr u) j = Some (SubTime s st) /\ exists v r, p = PubSend id v s r) -> doomed u k j s) as YES.
  { intros (st & C). exists p, id, l, x, st. split; [exact N|]. split; [exact T|]. split; [exact W|]. split; [exact O|].
    split; [apply in_range_iff; exact IR|]. split; [congruence|exact C]. }
  destruct (nth_error (u_thr u) j) as [q9|] eqn:Nj; [|apply NO; congruence].
  destruct q9 as [| | | | | | | |s1 st1|s1 st1|s1 st1]; try (apply NO; congruence).
  - destruct (Nat.eq_dec s1 s) as [->|D]; [|apply NO; congruence].
    destruct p as [|id0 v0|id0 v0 l0|id0 v0 s0 l0|id0 v0 s0 l0|id0 v0 s0 l0| | | | |]; try (apply NO; congruence).
    destruct (Nat.eq_dec s0 s) as [->|D0]; [|apply NO; congruence].
    left. apply YES. exists st1. right. split; [reflexivity|]. cbn in T. injection T as -> _. eauto.
  - destruct (Nat.eq_dec s1 s) as [->|D]; [|apply NO; congruence].
    left. apply YES. exists st1. left. reflexivity.
Qed.
Lemma doomed_or : forall u, (exists k j s, doomed u k j s) \/ (forall k j s, ~ doomed u k j s).
Proof.
  intros u.
  assert (forall k j, (exists s, doomed u k j s) \/ (forall s, ~ doomed u k j s)) as D1.
  { intros k j. destruct (nth_error (u_thr u) k) as [p|] eqn:N; [|right; intros s (p & id & l & x & st & Np & _); congruence].
    destruct (left_to p) as [[id l]|] eqn:T; [|right; intros s (p' & id & l & x & st & Np & T' & _); congruence].
    destruct (or_list nat (doomed u k j) l (doomed_at u k j)) as [(s & _ & H)|H]; [left; eauto|].
    right. intros s Dm. apply (H s); [|exact Dm]. destruct Dm as (p' & id' & l' & x & st & Np & T' & W & _). congruence. }
  assert (forall k, (exists j s, doomed u k j s) \/ (forall j s, ~ doomed u k j s)) as D2.
  { intros k. destruct (or_thread (fun j => exists s, doomed u k j s) (u_thr u)) as [(j & H)|H].
    - intros j. destruct (D1 k j) as [H|H]; [auto|]. right. intros (s & Hs). exact (H s Hs).
    - intros j (s & p & id & l & x & st & _ & _ & _ & _ & _ & _ & [C|[C _]]); congruence.
    - left. eauto.
    - right. intros j s Dm. apply (H j). eauto. }
  destruct (or_thread (fun k => exists j s, doomed u k j s) (u_thr u)) as [(k & H)|H].
  - intros k. destruct (D2 k) as [H|H]; [auto|]. right. intros (j & s & Hs). exact (H j s Hs).
  - intros k (j & s & p & id & l & x & st & C & _). congruence.
  - left. eauto.
  - right. intros k j s Dm. apply (H k). eauto.
Qed.

(** ** Everybody can return *)
Lemma remove_exact_inv : forall u i s store, uinv u -> u_lock u = None ->
  nth_error (u_thr u) i = Some (SubRem s store) ->
  exists u', uexec u (VStep i) = Some u' /\ u_lock u' = None /\ u_log u' = URet i s store :: u_log u /\
    nth_error (u_thr u') i = Some UIdle /\ (forall j, j <> i -> nth_error (u_thr u') j = nth_error (u_thr u) j).
Proof.
  intros u i s store I L N. eexists. split; [cbn [uexec]; rewrite N; cbn [ustep]; rewrite L; reflexivity|]. ufields.
  split; [exact L|]. split; [reflexivity|]. split; [erewrite upd_same by exact N; reflexivity|]. intros j D. apply upd_other. congruence.
Qed.
Lemma clear_rems : forall n u, uinv u -> u_lock u = None -> exists l u', urun u l = Some u' /\ u_lock u' = None /\
  (forall j s store, (j < n)%nat -> nth_error (u_thr u') j <> Some (SubRem s store)) /\
  (forall j, (n <= j)%nat -> nth_error (u_thr u') j = nth_error (u_thr u) j) /\
  (forall j p, nth_error (u_thr u) j = Some p -> (forall s store, p <> SubRem s store) -> nth_error (u_thr u') j = Some p) /\
  exists new, u_log u' = new ++ u_log u.
Proof.
  induction n as [|n IH]; intros u I L.
  - exists [], u. split; [reflexivity|]. split; [exact L|]. split; [lia|]. split; [reflexivity|]. split; [auto|]. exists []. reflexivity.
  - destruct (IH u I L) as (l & u1 & R & L1 & A & B & C & new & Lg). pose proof (urun_inv _ _ _ I R) as I1.
    destruct (nth_error (u_thr u1) n) as [p|] eqn:N.
    2:{ exists l, u1. split; [exact R|]. split; [exact L1|]. split; [|split; [intros j W; apply B; lia|split; [exact C|eauto]]].
        intros j s st W. destruct (Nat.eq_dec j n) as [->|D]; [congruence|apply A; lia]. }
    assert (forall q, nth_error (u_thr u1) n = Some q -> (forall s st, q <> SubRem s st) ->
      exists l u', urun u l = Some u' /\ u_lock u' = None /\
      (forall j s store, (j < S n)%nat -> nth_error (u_thr u') j <> Some (SubRem s store)) /\
      (forall j, (S n <= j)%nat -> nth_error (u_thr u') j = nth_error (u_thr u) j) /\
      (forall j p, nth_error (u_thr u) j = Some p -> (forall s store, p <> SubRem s store) -> nth_error (u_thr u') j = Some p) /\
      exists new, u_log u' = new ++ u_log u) as EASY.
    { intros q Nq Dq. exists l, u1. split; [exact R|]. split; [exact L1|].
      split; [|split; [intros j W; apply B; lia|split; [exact C|eauto]]].
      intros j s st W. destruct (Nat.eq_dec j n) as [->|D]; [intros X; rewrite X in Nq; injection Nq as <-; now apply (Dq s st)|apply A; lia]. }
    destruct p; try (apply (EASY _ N); discriminate). clear EASY.
    destruct (remove_exact_inv u1 n s store I1 L1 N) as (u2 & X & L2 & Lg2 & N2 & O2).
    exists (l ++ [VStep n]), u2. rewrite urun_app, R. cbn [urun]. rewrite X. split; [reflexivity|]. split; [exact L2|]. split; [|split; [|split]].
    + intros j s' st W. destruct (Nat.eq_dec j n) as [->|D]; [congruence|]. rewrite O2 by exact D. apply A. lia.
    + intros j W. rewrite O2 by lia. apply B. lia.
    + intros j p Nj Dp. pose proof (C j p Nj Dp) as Q. destruct (Nat.eq_dec j n) as [->|D]; [|rewrite O2 by exact D; exact Q].
      rewrite N in Q. injection Q as <-. now destruct (Dp s store).
    + exists (URet n s store :: new). rewrite Lg2, Lg. reflexivity.
Qed.

Lemma publisher_returns : forall u i id v, uinv u -> u_lock u = None -> nth_error (u_thr u) i = Some (PubLock id v) ->
  exists l u' new, urun u l = Some u' /\ u_log u' = UPubRet i :: new ++ u_log u.
Proof.
  intros u i id v I L N. destruct (clear_rems (length (u_thr u)) u I L) as (l1 & u1 & R1 & L1 & A & B & C & new & Lg).
  pose proof (urun_inv _ _ _ I R1) as I1.
  pose proof (C i _ N ltac:(discriminate)) as N1.
  assert (forall j s st, nth_error (u_thr u1) j <> Some (SubRem s st)) as NR.
  { intros j s st Q. destruct (Nat.lt_ge_cases j (length (u_thr u))) as [W|W]; [exact (A j s st W Q)|].
    rewrite (B j W) in Q. apply nth_error_None in W. congruence. }
  destruct (uexec u1 (VStep i)) as [u2|] eqn:X; [|cbn in X; rewrite N1 in X; cbn in X; rewrite L1 in X; discriminate].
  pose proof (uexec_inv _ _ _ I1 X) as I2. pose proof X as X'.
  cbn [uexec] in X. rewrite N1 in X. cbn [ustep] in X. rewrite L1 in X.
  assert (u_lock u2 = Some i) as L2 by (injection X as <-; reflexivity).
  assert (nth_error (u_thr u2) i = Some (PubLoop id v (u_subs u1))) as N2 by (injection X as <-; ufields; erewrite upd_same by exact N1; reflexivity).
  destruct (freed_all u2 i I2 L2) as (acts & um & u' & R & _ & Lm & Xm & L' & _).
  { intros j s (p & id' & l & x & st & Np & T & _ & _ & _ & _ & [P|(_ & v' & r & ->)]); [|congruence].
    assert (j <> i) as D by (intros ->; congruence).
    injection X as <-. ufields. rewrite upd_other in P by congruence. exact (NR j s st P). }
  exists (l1 ++ VStep i :: acts ++ [VStep i]), u', (UPub i id v :: new).
  split; [rewrite urun_app, R1; cbn [urun]; rewrite X', urun_app, R; cbn [urun]; rewrite Xm; reflexivity|].
  rewrite L'. f_equal. injection X as <-. ufields. rewrite Lg. reflexivity.
Qed.

Lemma busy_returns : forall u i, uinv u -> (forall k j s, ~ doomed u k j s) -> busy u i ->
  exists l u' e new, urun u l = Some u' /\ returns_of i e /\ u_log u' = e :: new ++ u_log u.
Proof.
  intros u i I ND (p & N & NI).
  assert (forall u0 p0 new0 l0, uinv u0 -> u_lock u0 = None -> nth_error (u_thr u0) i = Some p0 -> urun u l0 = Some u0 ->
    u_log u0 = new0 ++ u_log u -> (subscribing p0 = true \/ exists id v, p0 = PubLock id v) ->
    exists l u' e new, urun u l = Some u' /\ returns_of i e /\ u_log u' = e :: new ++ u_log u) as FR.
  { intros u0 p0 new0 l0 I0 L0 N0 R0 Lg0 [S|(id & v & ->)].
    - destruct (ended_all u0 i p0 I0 L0 N0 S) as (acts & um & u' & new & s & st & R & _ & Lm & _ & X & L' & _).
      exists (l0 ++ acts ++ [VStep i]), u', (URet i s st), (new ++ new0).
      split; [rewrite urun_app, R0, urun_app, R; cbn [urun]; rewrite X; reflexivity|].
      split; [right; eauto|]. rewrite L', Lg0, app_assoc. reflexivity.
    - destruct (publisher_returns u0 i id v I0 L0 N0) as (l & u' & new & R & L').
      exists (l0 ++ l), u', (UPubRet i), (new ++ new0). split; [rewrite urun_app, R0; exact R|].
      split; [left; reflexivity|]. rewrite L', Lg0, app_assoc. reflexivity. }
  destruct (u_lock u) as [k|] eqn:L.
  - destruct (freed_all u k I L (ND k)) as (acts & um & u' & R & _ & Lm & X & L' & Lk & _ & Nk & O').
    assert (urun u (acts ++ [VStep k]) = Some u') as R' by (rewrite urun_app, R; cbn [urun]; rewrite X; reflexivity).
    destruct (Nat.eq_dec i k) as [->|D].
    + exists (acts ++ [VStep k]), u', (UPubRet k), []. split; [exact R'|]. split; [left; reflexivity|exact L'].
    + destruct (O' i p D N) as (p' & Np & Q).
      apply (FR u' p' [UPubRet k] _ (urun_inv _ _ _ I R') Lk Np R' L').
      assert (pub_holds p = false) as NH.
      { destruct (pub_holds p) eqn:E; [|reflexivity]. apply (a_lock u I i p N) in E. congruence. }
      destruct Q as [->|(s & st & m & _ & _ & [->| ->])]; [|left; reflexivity|left; reflexivity].
      destruct p; try discriminate; try congruence; auto. right. eauto.
  - apply (FR u p [] [] I L N eq_refl eq_refl). pose proof (free_no_holder u i p I L N) as F.
    destruct p; try discriminate; try congruence; auto. right. eauto.
Qed.

Lemma silent_iff_doomed : forall u, ureachable u -> (silent_forever u <-> exists k j s, doomed u k j s).
Proof.
  intros u R. apply ureach_inv in R. split.
  - intros S. destruct (doomed_or u) as [D|D]; [exact D|]. exfalso.
    (* a new goroutine subscribes *)
    set (n := length (u_thr u)).
    set (u1 := u_setthr u (u_thr u ++ [UIdle])).
    assert (uexec u VSpawn = Some u1) as X1 by reflexivity.
    assert (nth_error (u_thr u1) n = Some UIdle) as N1.
    { subst u1 n. ufields. rewrite nth_error_app2 by lia. rewrite Nat.sub_diag. reflexivity. }
    set (u2 := u_set u1 n (SubNew 0 0)).
    assert (uexec u1 (VCall n (CallSub 0 0)) = Some u2) as X2 by (cbn [uexec]; rewrite N1; reflexivity).
    assert (nth_error (u_thr u2) n = Some (SubNew 0 0)) as N2 by (subst u2; ufields; erewrite upd_same by exact N1; reflexivity).
    pose proof (uexec_inv _ _ _ (uexec_inv _ _ _ R X1) X2) as I2.
    destruct (busy_returns u2 n I2) as (l & u' & e & new & R' & _ & L').
    { intros k j s (p & id & l & x & st & Np & T & W & O & Rg & Q & P).
      assert (forall m q, nth_error (u_thr u2) m = Some q -> q <> SubNew 0 0 -> nth_error (u_thr u) m = Some q \/ q = UIdle) as BK.
      { intros m q Nm Dq. assert (m <> n) as D0 by (intros ->; congruence). subst u2 u1. ufields. rewrite upd_other in Nm by congruence.
        destruct (uspawn_inv _ _ _ Nm) as [?|[_ ?]]; auto. }
      destruct (BK k p Np) as [Np'| ->]; [intros ->; discriminate| |discriminate].
      apply (D k j s). exists p, id, l, x, st. repeat (split; [assumption|]).
      destruct P as [P|[P E]]; (destruct (BK j _ P) as [P'|P']; [discriminate| |discriminate]); auto. }
    { eexists. split; [exact N2|discriminate]. }
    specialize (S (VSpawn :: VCall n (CallSub 0 0) :: l) u'). cbn [urun] in S. rewrite X1, X2 in S. specialize (S R').
    rewrite S in L'. subst u2 u1. ufields. apply (f_equal (@length uevent)) in L'. cbn in L'. rewrite app_length in L'. lia.
  - intros (k & j & s & D) l u' H. apply (doomed_forever l u u' k j s R D H).
Qed.
