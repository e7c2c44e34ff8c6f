(** * A check that a timed run is prompt *)
Require Import List ZArith Bool Lia.
From Verif Require Import ModelClient ModelSystem ModelScan ModelWhole ModelTime SpecFair SpecTime.
From Verif Require ModelTsm ModelUtsm.
From Verif Require Import ProofsFairWhole ProofsTime.
Import ListNotations.
Import ModelTsm.
Open Scope Z_scope.

(** every step that a goroutine could take *)
Definition acts (z : whole) : list zaction :=
  let n := length (w_ph (z_w z)) in
  let m := length (sy_thr (w_tsm (z_w z))) in
  let y := length (y_ph (z_y z)) in
  let u := length (ModelUtsm.u_thr (y_u (z_y z))) in
  flat_map (fun j => [ZW (WTx j true); ZW (WTx j false); ZW (WRet j)]) (seq 0 n) ++
  flat_map (fun j => [ZW (WTsm (AStep j)); ZW (WTsm (ATimeout j)); ZW (WTsm (AGet j None))] ++
                     map (fun k => ZW (WTsm (AGet j (Some k)))) (seq 0 (length (sy_pool (w_tsm (z_w z))))) ++
                     map (fun k => ZW (WTsm (ADeliver j k))) (seq 0 m)) (seq 0 m) ++
  flat_map (fun j => [ZDeliver j; ZY (YTx j true); ZY (YTx j false); ZY (YOffer j); ZY (YCheck j); ZY (YTake j)]) (seq 0 y) ++
  flat_map (fun j => [ZY (YIn (ModelUtsm.VStep j)); ZY (YIn (ModelUtsm.VRecv j)); ZY (YIn (ModelUtsm.VTimeout j))]) (seq 0 u).
Definition no (bcast : address) (me : option address) (t : timed) (a : zaction) : bool :=
  match texec bcast me t (TDo a) with None => true | Some _ => false end.
Definition idles (bcast : address) (me : option address) (t : timed) (d : Z) : bool :=
  forallb (no bcast me (later t (d - 1))) (acts (t_z t)).

Lemma below : forall A (l : list A) i x, nth_error l i = Some x -> In i (seq 0 (length l)).
Proof. intros A l i x H. apply in_seq. assert (i < length l)%nat by (apply nth_error_Some; congruence). lia. Qed.
Lemma acts_all : forall bcast me z a z' i, z_of i a = true -> zexec bcast me z a = Some z' -> In a (acts z).
Proof.
  intros bcast me z a z' i O E. unfold zexec in E. destruct (z_dead z); [discriminate|]. unfold acts. rewrite !in_app_iff, !in_flat_map.
  destruct a as [| | | |j|a|a]; try discriminate O.
  - right. right. left. destruct (nth_error (y_ph (z_y z)) j) eqn:N; [|discriminate]. exists j. split; [exact (below _ _ _ _ N)|left; reflexivity].
  - destruct (w_step a) eqn:S; [|discriminate]. unfold z_do_w in E. destruct (wexec me (z_w z) a) as [w|] eqn:EW; [|discriminate]. unfold wexec in EW. destruct (w_dead (z_w z)); [discriminate|].
    destruct a as [| | |j ok|j|b]; try discriminate S.
    + left. destruct (nth_error (w_ph (z_w z)) j) eqn:N; [|discriminate]. exists j. split; [exact (below _ _ _ _ N)|]. destruct ok; [left|right; left]; reflexivity.
    + left. destruct (nth_error (w_ph (z_w z)) j) eqn:N; [|discriminate]. exists j. split; [exact (below _ _ _ _ N)|]. right. right. left. reflexivity.
    + right. left. destruct (inside b); [|discriminate]. destruct (exec (w_tsm (z_w z)) b) as [s|] eqn:X; [|discriminate]. unfold exec in X. destruct (sy_crash _); [discriminate|].
      destruct b as [|? ?|j|j|j k|j k|k]; try discriminate O; (destruct (nth_error (sy_thr (w_tsm (z_w z))) j) as [p|] eqn:N; [|discriminate X]); exists j; (split; [exact (below _ _ _ _ N)|]); rewrite !in_app_iff.
      * left. left. reflexivity.
      * left. right. left. reflexivity.
      * destruct k as [k|]; [|left; right; right; left; reflexivity]. right. left. apply in_map_iff. exists k. split; [reflexivity|].
        destruct p; try discriminate X. destruct (nth_error (sy_pool (w_tsm (z_w z))) k) eqn:K; [|discriminate X]. exact (below _ _ _ _ K).
      * right. right. apply in_map_iff. exists k. split; [reflexivity|]. destruct p; try discriminate X. destruct c as [c|]; [|discriminate X].
        destruct (nth_error (sy_thr (w_tsm (z_w z))) k) eqn:K; [|discriminate X]. exact (below _ _ _ _ K).
  - destruct (y_step a) eqn:S; [|discriminate]. unfold z_do_y in E. destruct (yexec bcast me (z_y z) a) as [y|] eqn:EY; [|discriminate]. unfold yexec in EY. destruct (y_dead (z_y z)); [discriminate|].
    destruct a as [| | |j ok|j|j|j|b]; try discriminate S.
    1-4: right; right; left; destruct (nth_error (y_ph (z_y z)) j) eqn:N; [|discriminate]; exists j; (split; [exact (below _ _ _ _ N)|]); try destruct ok; cbn; tauto.
    right. right. right. destruct (y_inside b); [|discriminate]. destruct (ModelUtsm.uexec (y_u (z_y z)) b) as [u|] eqn:X; [|discriminate].
    destruct b as [|? ?|j|j|j]; try discriminate O; unfold ModelUtsm.uexec in X; (destruct (nth_error (ModelUtsm.u_thr (y_u (z_y z))) j) eqn:N; [|discriminate X]);
      exists j; (split; [exact (below _ _ _ _ N)|]); cbn; tauto.
Qed.
Lemma fire_later : forall t e e' a, e <= e' -> may_fire (later t e) a = true -> may_fire (later t e') a = true.
Proof. intros t e e' a L H. destruct a as [| | | | |[| | | | |[]]|[| | | | | | |[]]]; auto; cbn in *; lia. Qed.
Lemma idles_idle : forall bcast me t d, idles bcast me t d = true -> idle_for bcast me t d.
Proof.
  intros bcast me t d H e i L (a & t' & O & T). unfold idles in H. rewrite forallb_forall in H. destruct (texec_do _ _ _ _ _ T) as (z & M & E & _). cbn [later t_z] in E.
  specialize (H a (acts_all _ _ _ _ _ _ O E)). unfold no in H. cbn [texec] in H. rewrite (fire_later t e (d - 1) a ltac:(lia) M) in H. cbn [later t_z] in H. rewrite E in H. discriminate H.
Qed.
Fixpoint promptly (bcast : address) (me : option address) (t : timed) (l : list taction) : bool :=
  match l with
  | [] => true
  | a :: r => match a with TPass d => idles bcast me t d | TDo _ => true end
              && match texec bcast me t a with Some t' => promptly bcast me t' r | None => true end
  end.
Lemma promptly_prompt : forall bcast me l t, promptly bcast me t l = true -> prompt bcast me t l.
Proof.
  intros bcast me l. induction l as [|a l IH]; intros t H; [exact Logic.I|]. cbn [promptly] in H. apply andb_prop in H. destruct H as [H1 H2]. cbn [prompt]. split.
  - intros d ->. apply idles_idle. exact H1.
  - intros t' E. rewrite E in H2. exact (IH _ H2).
Qed.
Lemma rest_idle : forall bcast me t d, at_rest (t_z t) -> idle_for bcast me t d.
Proof. intros bcast me t d AR e i _ (a & t' & O & T). destruct (texec_do _ _ _ _ _ T) as (z & _ & E & _). apply (rest_still bcast me _ i AR). exists a, z. auto. Qed.
Lemma prompt_app : forall bcast me l t t' r, trun bcast me t l = Some t' -> prompt bcast me t l -> prompt bcast me t' r -> prompt bcast me t (l ++ r).
Proof.
  intros bcast me l. induction l as [|a l IH]; intros t t' r H P Q; cbn [trun] in H; [injection H as <-; exact Q|]. destruct (texec bcast me t a) as [t1|] eqn:E; [|discriminate].
  cbn [prompt app] in *. destruct P as [P1 P2]. split; [exact P1|]. intros t2 E2. rewrite E in E2. injection E2 as <-. exact (IH _ _ _ H (P2 _ E) Q).
Qed.
Lemma trun_app : forall bcast me l t r, trun bcast me t (l ++ r) = match trun bcast me t l with Some t' => trun bcast me t' r | None => None end.
Proof. intros bcast me l. induction l as [|a l IH]; intros t r; [reflexivity|]. cbn [trun app]. destruct (texec bcast me t a); [apply IH|reflexivity]. Qed.

(** ** Runs given by their steps *)
Definition shows (bcast : address) (me : option address) (l1 : list taction) (a : taction) (l2 : list taction) (chk : timed -> timed -> timed -> bool) : bool :=
  match trun bcast me t_init l1 with
  | Some t0 => match texec bcast me t0 a with
               | Some t1 => promptly bcast me t_init l1 && promptly bcast me t1 l2 && match trun bcast me t1 l2 with Some t2 => negb (z_dead (t_z t2)) && chk t0 t1 t2 | None => false end
               | None => false
               end
  | None => false
  end.
Lemma shown : forall bcast me l1 a l2 chk, shows bcast me l1 a l2 chk = true ->
  exists t0 t1 t2, trun bcast me t_init l1 = Some t0 /\ texec bcast me t0 a = Some t1 /\ trun bcast me t1 l2 = Some t2 /\
    prompt bcast me t_init l1 /\ prompt bcast me t1 l2 /\ z_dead (t_z t2) = false /\ chk t0 t1 t2 = true.
Proof.
  intros bcast me l1 a l2 chk H. unfold shows in H. destruct (trun bcast me t_init l1) as [t0|] eqn:E0; [|discriminate]. destruct (texec bcast me t0 a) as [t1|] eqn:E1; [|discriminate].
  apply andb_prop in H. destruct H as [H H3]. apply andb_prop in H. destruct H as [H1 H2]. destruct (trun bcast me t1 l2) as [t2|] eqn:E2; [|discriminate].
  apply andb_prop in H3. destruct H3 as [H3 H4]. apply negb_true_iff in H3.
  exists t0, t1, t2. split; [reflexivity|]. split; [exact E1|]. split; [exact E2|]. split; [apply promptly_prompt; exact H1|]. split; [apply promptly_prompt; exact H2|]. auto.
Qed.
Lemma rest_for : forall bcast me t1 l2 t2 d, trun bcast me t1 l2 = Some t2 -> prompt bcast me t1 l2 -> resting (t_z t2) = true -> 0 < d ->
  trun bcast me t1 (l2 ++ [TPass d]) = Some (later t2 d) /\ prompt bcast me t1 (l2 ++ [TPass d]).
Proof.
  intros bcast me t1 l2 t2 d R P RS D. split.
  - rewrite trun_app, R. cbn [trun texec]. replace (0 <? d) with true by (symmetry; apply Z.ltb_lt; exact D). reflexivity.
  - apply (prompt_app _ _ _ _ _ _ R P). cbn [prompt]. split; [|auto]. intros d' Q. injection Q as <-. apply rest_idle, resting_rest, RS.
Qed.
