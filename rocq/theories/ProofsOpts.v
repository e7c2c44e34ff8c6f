(** * C145 *)
Require Import List ZArith Bool Lia.
From Verif Require Import ModelClient ModelOpts SpecOpts.
Import ListNotations.
Open Scope Z_scope.

Fixpoint used (wh : whoIsOpts) (es : list edit) : list whoIsOpts :=
  match es with [] => [] | e :: es' => edited e wh :: used (whois_leaves (edited e wh)) es' end.
Lemma calls_used : forall bcast me es wh, whois_calls bcast me wh es = map (fun w => (whois_frame bcast me w, whois_sub w)) (used wh es).
Proof. intros bcast me es. induction es as [|e es IH]; intros wh; cbn; [reflexivity|]. rewrite IH. reflexivity. Qed.
Definition same_but (a b : whoIsOpts) : Prop := wh_low a = wh_low b /\ wh_high a = wh_high b /\ wh_global a = wh_global b.
(** [w] is what the memory holds, [wh] what the caller wrote *)
Lemma used_at : forall es w wh n e (g : Prop), same_but w wh -> nth_error es n = Some e ->
  (g -> wh_net w = 65535) -> (~ g -> wh_net w = wh_net wh) -> (g \/ ~ g) ->
  exists w', nth_error (used w es) n = Some w' /\ same_but w' (wrote wh es (S n)) /\
    ((stale wh es n \/ g /\ (forall j x, (j <= n)%nat -> nth_error es j = Some x -> e_net x = None)) -> wh_net w' = 65535) /\
    (~ (stale wh es n \/ g /\ (forall j x, (j <= n)%nat -> nth_error es j = Some x -> e_net x = None)) -> wh_net w' = wh_net (wrote wh es (S n))).
Proof.
  induction es as [|e0 es IH]; intros w wh n e g (S1 & S2 & S3) E G1 G2 DG; [destruct n; discriminate E|].
  assert (SE : same_but (edited e0 w) (edited e0 wh)) by (unfold same_but, edited; cbn; rewrite S1, S2, S3; auto).
  destruct n as [|n].
  - cbn [nth_error used]. exists (edited e0 w). split; [reflexivity|]. split; [exact SE|]. cbn [wrote fold_left firstn].
    assert (NS : ~ stale wh (e0 :: es) 0) by (intros (k & K & _); lia).
    split.
    + intros [H|[H A]]; [contradiction|]. specialize (A 0%nat e0 (le_n 0) eq_refl). cbn [edited wh_net]. rewrite A. exact (G1 H).
    + intros H. cbn [edited wh_net]. destruct (e_net e0) as [z|] eqn:Ez; [reflexivity|]. cbn [written]. apply G2. intros C. apply H. right. split; [exact C|]. intros j x J N. replace j with 0%nat in N by lia. injection N as <-. exact Ez.
  - cbn [nth_error] in E. cbn [used nth_error].
    set (g' := wh_global (edited e0 wh) = true \/ (g /\ e_net e0 = None)).
    assert (DE : wh_global (edited e0 w) = wh_global (edited e0 wh)) by apply SE.
    assert (DG' : g' \/ ~ g').
    { unfold g'. destruct (wh_global (edited e0 wh)); [left; left; reflexivity|]. destruct (e_net e0); [right; intros [C|[_ C]]; discriminate C|]. destruct DG as [D|D]; [left; right; auto|right; intros [C|[C _]]; [discriminate C|contradiction]]. }
    destruct (IH (whois_leaves (edited e0 w)) (edited e0 wh) n e g') as (w' & N & SB & H1 & H2); [|exact E| | |exact DG'|].
    + unfold whois_leaves. destruct (wh_global (edited e0 w)) eqn:Q; [|exact SE]. destruct SE as (A & B & C). unfold same_but. cbn [wh_low wh_high wh_global]. rewrite <- C, <- Q. auto.
    + unfold whois_leaves. rewrite DE. intros [C|[C1 C2]]; [rewrite C; reflexivity|]. destruct (wh_global (edited e0 wh)); [reflexivity|]. cbn [edited wh_net]. rewrite C2. exact (G1 C1).
    + unfold whois_leaves. rewrite DE. intros C. destruct (wh_global (edited e0 wh)) eqn:Q; [contradiction C; left; reflexivity|]. cbn [edited wh_net]. destruct (e_net e0) as [z|] eqn:Ez; [reflexivity|]. cbn [written]. apply G2. intros X. apply C. right. auto.
    + exists w'. split; [exact N|]. split; [exact SB|].
      assert (EQ : (stale wh (e0 :: es) (S n) \/ g /\ (forall j x, (j <= S n)%nat -> nth_error (e0 :: es) j = Some x -> e_net x = None)) <->
                   (stale (edited e0 wh) es n \/ g' /\ (forall j x, (j <= n)%nat -> nth_error es j = Some x -> e_net x = None))).
      { split.
        - intros [(k & K & GL & A)|[C A]].
          + destruct k as [|k]; [right; split; [left; exact GL|]; intros j x J; apply (A (S j) x); lia|]. left. exists k. split; [lia|]. split; [exact GL|]. intros j x J. apply (A (S j) x). lia.
          + right. split; [right; split; [exact C|apply (A 0%nat e0); [lia|reflexivity]]|]. intros j x J. apply (A (S j) x). lia.
        - intros [(k & K & GL & A)|[[C|[C1 C2]] A]].
          + left. exists (S k). split; [lia|]. split; [exact GL|]. intros j x J. destruct j as [|j]; [lia|]. apply (A j x). lia.
          + left. exists 0%nat. split; [lia|]. split; [exact C|]. intros j x J. destruct j as [|j]; [lia|]. apply (A j x). lia.
          + right. split; [exact C1|]. intros j x J X. destruct j as [|j]; [injection X as <-; exact C2|]. apply (A j x); [lia|exact X]. }
      rewrite EQ. split; [exact H1|exact H2].
Qed.
Lemma opts_eq : forall a b, same_but a b -> wh_net a = wh_net b -> a = b.
Proof. intros [a1 a2 a3 a4] [b1 b2 b3 b4] (H1 & H2 & H3) H4. cbn in *. subst. reflexivity. Qed.
(** the [n]th call *)
Lemma calls_exact : forall bcast me wh es n e, nth_error es n = Some e ->
  let w := wrote wh es (S n) in
  (~ stale wh es n -> nth_error (whois_calls bcast me wh es) n = Some (whois_frame bcast me w, whois_sub w)) /\
  (stale wh es n -> let g := mkWho (wh_low w) (wh_high w) (wh_global w) 65535 in nth_error (whois_calls bcast me wh es) n = Some (whois_frame bcast me g, whois_sub g)).
Proof.
  intros bcast me wh es n e E w. rewrite calls_used. destruct (used_at es wh wh n e False) as (w' & N & SB & H1 & H2); [unfold same_but; auto|exact E|intros []|reflexivity|right; intros []|].
  split; intros H.
  - rewrite (map_nth_error _ _ _ N). rewrite (opts_eq w' w SB); [reflexivity|]. apply H2. intros [C|[[] _]]. exact (H C).
  - intros g. rewrite (map_nth_error _ _ _ N). rewrite (opts_eq w' g); [reflexivity| |apply H1; left; exact H]. destruct SB as (A & B & C). unfold same_but, g, w. cbn. auto.
Qed.
Lemma global_same : forall bcast me low high n n', (whois_frame bcast me (mkWho low high true n), whois_sub (mkWho low high true n)) = (whois_frame bcast me (mkWho low high true n'), whois_sub (mkWho low high true n')).
Proof. reflexivity. Qed.
(** calls that are told what to do for every network number, or that are all global *)
Lemma calls_as_written : forall bcast me wh es n e, nth_error es n = Some e -> (e_net e <> None \/ wh_global (wrote wh es (S n)) = true \/ forall k, (k < n)%nat -> wh_global (wrote wh es (S k)) = false) ->
  nth_error (whois_calls bcast me wh es) n = Some (whois_frame bcast me (wrote wh es (S n)), whois_sub (wrote wh es (S n))).
Proof.
  intros bcast me wh es n e E H. destruct (calls_exact bcast me wh es n e E) as [H1 H2].
  destruct H as [H|[H|H]].
  - apply H1. intros (k & K & _ & A). apply H. apply (A n e); [lia|exact E].
  - destruct (calls_exact bcast me wh es n e E) as [_ _]. rewrite calls_used in *. destruct (used_at es wh wh n e False) as (w' & N & (A & B & C) & _ & _); [unfold same_but; auto|exact E|intros []|reflexivity|right; intros []|].
    rewrite (map_nth_error _ _ _ N). f_equal. destruct w' as [l h g x], (wrote wh es (S n)) as [l' h' g' x']. cbn in *. subst. apply global_same.
  - apply H1. intros (k & K & GL & _). rewrite (H k K) in GL. discriminate GL.
Qed.
