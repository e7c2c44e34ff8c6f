(** Proofs about functions that make several requests: C140, C141. *)
Require Import List ZArith Bool Lia.
From Verif Require Import ModelClient ModelSystem ModelScan ModelWhole ModelTime ModelScript SpecSystem SpecWhole SpecFair SpecTime SpecScript.
From Verif Require Import ModelTsm.
From Verif Require Import ProofsTsm ProofsSystem ProofsWhole ProofsFair ProofsFairWhole ProofsTime ProofsTimeCheck.
Import ListNotations.
Open Scope Z_scope.

(** ** A script played alone is the function *)
Fixpoint plays {A} (envs : nat -> env) (me : option address) (k : nat) (s : script A) : nat * call A :=
  match s with
  | SEnd r => (k, ([], r))
  | SCall rq c =>
    let '(tr, r) := alone (envs k) me rq in
    let '(k', (tr', r')) := plays envs me (S k) (c r) in (k', (tr ++ tr', r'))
  end.
Definition pret {A B} (x : nat * call A) (f : nat -> A -> nat * call B) : nat * call B :=
  let '(k, (tr, r)) := x in
  match r with
  | COk a => let '(k', (tr', r')) := f k a in (k', (tr ++ tr', r'))
  | CErr e => (k, (tr, CErr (CWrap e)))
  | CPanic => (k, (tr, CPanic))
  | CDiverge => (k, (tr, CDiverge))
  end.
Lemma plays_bind : forall A B envs me (s : script A) (f : A -> script B) k,
  plays envs me k (sbind s f) = pret (plays envs me k s) (fun k a => plays envs me k (f a)).
Proof.
  intros A B envs me s f. induction s as [r|rq c IH]; intros k.
  - cbn [sbind plays pret]. destruct r as [x|e| |]; cbn [sret plays]; try reflexivity. destruct (plays envs me k (f x)) as (k' & tr & r). reflexivity.
  - cbn [sbind plays]. destruct (alone (envs k) me rq) as [tr r]. rewrite IH. destruct (plays envs me (S k) (c r)) as (k' & tr' & r'). cbn [pret].
    destruct r' as [x|e| |]; try reflexivity. destruct (plays envs me k' (f x)) as (k2 & tr2 & r2). rewrite app_assoc. reflexivity.
Qed.
Lemma plays_read : forall envs me k dev rp, plays envs me k (read_script dev rp) = (S k, ReadProperty (envs k) me dev rp).
Proof. intros. cbn [read_script plays alone both]. unfold both. destruct (ReadProperty (envs k) me dev rp) as [tr r]. destruct r; cbn; rewrite app_nil_r; reflexivity. Qed.
Lemma plays_multi : forall envs me k fuel dev rp, plays envs me k (multi_script fuel dev rp) = (S k, ReadMultiProperty fuel (envs k) me dev rp).
Proof. intros. cbn [multi_script plays alone both]. unfold both. destruct (ReadMultiProperty fuel (envs k) me dev rp) as [tr r]. destruct r; cbn; rewrite app_nil_r; reflexivity. Qed.
Lemma plays_len : forall envs me k dev, plays envs me k (objectListLen_script dev) = (S k, objectListLen (envs k) me dev).
Proof.
  intros. unfold objectListLen_script, objectListLen. rewrite plays_bind, plays_read. unfold pret, cbind. destruct (ReadProperty _ _ _ _) as [tr r]. destruct r as [x|e| |]; try reflexivity.
  cbn [plays]. destruct (o_props (pd_object x)) as [|p ps]; [reflexivity|]. destruct (pr_data p); reflexivity.
Qed.
Lemma plays_range : forall envs me k fuel dev a b, plays envs me k (objectsRange_script fuel dev a b) = (S k, objectsRange fuel (envs k) me dev a b).
Proof.
  intros. unfold objectsRange_script, objectsRange. rewrite plays_bind, plays_multi. unfold pret, cbind. destruct (ReadMultiProperty _ _ _ _ _) as [tr r]. destruct r as [x|e| |]; try reflexivity.
  cbn [plays]. destruct x as [|o os]; [reflexivity|]. destruct (ModelClient.ids_of (o_props o)); reflexivity.
Qed.
Lemma plays_chunks : forall envs me fuel dev cs k m, exists k', plays envs me k (read_chunks_script fuel dev cs m) = (k', read_chunks fuel k envs me dev cs m) /\
  (forall m', snd (read_chunks fuel k envs me dev cs m) = COk m' -> k' = (k + length cs)%nat).
Proof.
  intros envs me fuel dev cs. induction cs as [|[a b] cs IH]; intros k m; cbn [read_chunks_script read_chunks].
  - exists k. split; [reflexivity|]. intros m' _. cbn. lia.
  - rewrite plays_bind, plays_range. unfold pret, cbind. destruct (objectsRange _ _ _ _ _ _) as [tr r]. destruct r as [x|e| |]; try (eexists; split; [reflexivity|intros m'; discriminate]).
    destruct (IH (S k) (objectCopy m x)) as (k' & E & K). rewrite E. destruct (read_chunks _ _ _ _ _ _ _) as [tr' r']. exists k'. split; [reflexivity|].
    cbn [snd] in *. intros m' H. rewrite (K m' H). cbn [length]. lia.
Qed.
Lemma plays_list : forall envs me fuel dev, exists k', plays envs me 0 (objectList_script fuel dev) =
    (k', (fst (objectList fuel envs me dev), match snd (objectList fuel envs me dev) with COk x => COk (snd x) | CErr e => CErr e | CPanic => CPanic | CDiverge => CDiverge end)) /\
  (forall x, snd (objectList fuel envs me dev) = COk x -> k' = fst x).
Proof.
  intros envs me fuel dev. unfold objectList_script, objectList. rewrite plays_bind, plays_len. unfold pret, cbind.
  destruct (objectListLen (envs 0%nat) me dev) as [tr r]. destruct r as [l|e| |]; try (eexists; split; [reflexivity|intros x H; cbn in H; discriminate H]).
  destruct (chunks _ l) as [cs|]; [|eexists; split; [reflexivity|intros x H; cbn in H; discriminate H]].
  rewrite plays_bind. destruct (plays_chunks envs me fuel dev cs 1 []) as (k' & E & K). rewrite E. unfold pret, cbind.
  destruct (read_chunks _ _ _ _ _ _ _) as [tr' r']. cbn [snd] in K. destruct r' as [m|e| |]; try (eexists; split; [reflexivity|intros x H; cbn in H; discriminate H]).
  exists k'. split; [cbn; rewrite app_nil_r; reflexivity|]. cbn. intros x [= <-]. cbn. rewrite (K m eq_refl). reflexivity.
Qed.
Lemma plays_info : forall envs me k fuel dev objs m, plays envs me k (objectInformation_script fuel dev objs m) = (S k, objectInformation fuel (envs k) me dev objs m).
Proof.
  intros. unfold objectInformation_script, objectInformation. rewrite plays_bind, plays_multi. unfold pret, cbind. destruct (ReadMultiProperty _ _ _ _ _) as [tr r]. destruct r; reflexivity.
Qed.
Lemma plays_all : forall envs me fuel dev n k objs m, snd (plays envs me k (all_info_script n fuel dev objs m)) = all_info n fuel k envs me dev objs m.
Proof.
  intros envs me fuel dev n. induction n as [|n IH]; intros k objs m; cbn [all_info_script all_info]; [reflexivity|].
  destruct objs as [|o objs]; [reflexivity|]. rewrite plays_bind, plays_info. unfold pret, cbind. destruct (objectInformation _ _ _ _ _ _) as [tr r]. destruct r as [x|e| |]; try reflexivity.
  specialize (IH (S k) (skipn 5 (o :: objs)) x). destruct (plays envs me (S k) _) as (k' & tr' & r'). cbn [snd] in *. rewrite <- IH. reflexivity.
Qed.
Lemma plays_objects : forall envs me fuel order dev, snd (plays envs me 0 (Objects_script fuel order dev)) = Objects fuel order envs me dev.
Proof.
  intros envs me fuel order dev. unfold Objects_script, Objects. rewrite plays_bind. destruct (plays_list envs me fuel dev) as (k' & E & K). rewrite E.
  destruct (objectList fuel envs me dev) as [tr r]. cbn [fst snd] in *. unfold pret, cbind. destruct r as [[k m]|e| |]; try reflexivity.
  rewrite (K _ eq_refl). cbn [fst snd]. pose proof (plays_all envs me fuel dev (length (map snd (order m))) k (map snd (order m)) m) as P.
  destruct (plays envs me k _) as (k2 & tr2 & r2). cbn [snd] in P. rewrite <- P. reflexivity.
Qed.

(** ** What a step does to a goroutine that does not begin a request *)
Definition moved (i : nat) (x : phase) (w w' : world) : Prop :=
  exists x', nth_error (w_ph w') i = Some x' /\
   ((req_of x' = req_of x \/ req_of x' = None) /\ (w_done w' = w_done w \/ exists f, w_done w' = f :: w_done w /\ fi_thread f <> i)
   \/ exists f, w_done w' = f :: w_done w /\ fi_thread f = i /\ req_of x = Some (fi_req f) /\ req_of x' = None).
Lemma nth_upd : forall A (l : list A) j y i x, nth_error l i = Some x -> nth_error (upd l j y) i = Some (if Nat.eqb j i then y else x).
Proof. intros A l j y i x N. destruct (Nat.eqb_spec j i) as [->|D]; [exact (upd_same _ _ _ _ _ N)|]. rewrite upd_other by exact D. exact N. Qed.
Lemma moved_with : forall w i x j y w', nth_error (w_ph w) i = Some x -> (j = i -> req_of y = req_of x \/ req_of y = None) -> w_ph w' = upd (w_ph w) j y -> w_done w' = w_done w -> moved i x w w'.
Proof.
  intros w i x j y w' N H P D. exists (if Nat.eqb j i then y else x). rewrite P. split; [exact (nth_upd _ _ _ _ _ _ N)|]. left. split; [|left; exact D].
  destruct (Nat.eqb_spec j i) as [E|E]; [exact (H E)|left; reflexivity].
Qed.
Lemma moved_same : forall w i x w', nth_error (w_ph w) i = Some x -> w_ph w' = w_ph w -> w_done w' = w_done w -> moved i x w w'.
Proof. intros w i x w' N P D. exists x. rewrite P. split; [exact N|]. left. split; [left; reflexivity|left; exact D]. Qed.
Lemma moved_back : forall w i x w0 w', w_ph w0 = w_ph w -> w_done w0 = w_done w -> moved i x w0 w' -> moved i x w w'.
Proof. intros w i x w0 w' P D (x' & N & H). exists x'. rewrite <- D. auto. Qed.
Lemma moved_handled : forall w i x j v v' b, nth_error (w_ph w) i = Some x -> nth_error (w_ph w) j = Some (NHandle v') -> moved i x w (handled w j v b).
Proof.
  intros w i x j v v' b N H. unfold handled. apply (moved_with w i x j NFree); [exact N|intros _; right; reflexivity| |].
  - destruct (nth_error _ v); [destruct (snd _)|]; reflexivity.
  - destruct (nth_error _ v); [destruct (snd _)|]; reflexivity.
Qed.
Lemma moved_done : forall w i x j y rq f, nth_error (w_ph w) i = Some x -> nth_error (w_ph w) j = Some y -> req_of y = Some rq -> fi_thread f = j -> fi_req f = rq ->
  moved i x w (with_done (with_ph w j NFree) f).
Proof.
  intros w i x j y rq f N Nj Q T R. cbn [moved with_done with_ph]. exists (if Nat.eqb j i then NFree else x). split; [cbn [w_ph with_done with_ph]; exact (nth_upd _ _ _ _ _ _ N)|].
  destruct (Nat.eqb_spec j i) as [E|E].
  - right. exists f. subst. rewrite Nj in N. injection N as <-. auto.
  - left. split; [left; reflexivity|]. right. exists f. split; [reflexivity|congruence].
Qed.
Lemma received_same : forall w j x, w_done (received w j x) = w_done w /\
  forall i y, nth_error (w_ph w) i = Some y -> exists y', nth_error (w_ph (received w j x)) i = Some y' /\ req_of y' = req_of y /\ (forall v, y = NHandle v -> y' = y).
Proof.
  intros w j x. unfold received. destruct (nth_error (w_ph w) j) as [z|] eqn:E; [|split; [reflexivity|intros i y N; exists y; now auto]].
  destruct z; try (split; [reflexivity|intros i y N; exists y; now auto]). split; [reflexivity|]. intros i y N. cbn. rewrite (nth_upd _ _ _ _ _ _ N).
  destruct (Nat.eqb_spec j i) as [->|D]; [|eauto]. rewrite E in N. injection N as <-. eexists. split; [reflexivity|]. split; [reflexivity|discriminate].
Qed.
Lemma moved_received : forall w i x j r, nth_error (w_ph w) i = Some x -> moved i x w (received w j r).
Proof. intros w i x j r N. destruct (received_same w j r) as [D H]. destruct (H i x N) as (y & N' & Q & _). exists y. split; [exact N'|]. left. auto. Qed.
Lemma moved_returned : forall me w i x e, nth_error (w_ph w) i = Some x -> moved i x w (returned me w e).
Proof.
  intros me w i x e N. assert (SAME : moved i x w w) by (apply moved_same; auto).
  destruct e as [i0 id o g|i0|i0 id g|i0 id|i0 id g|i0 id v g|i0 id v|i0 sid sg j rid rg v|j id|j id|j id|i0]; cbn [returned]; try exact SAME; try (apply moved_received; exact N);
    try (destruct (nth_error (w_ph w) i0) as [y|] eqn:E; [|exact SAME]; destruct y; try exact SAME).
  - eapply moved_with; [exact N| |reflexivity|reflexivity]. intros ->. rewrite E in N. injection N as <-. left. reflexivity.
  - destruct (start me rq None).
    + eapply moved_done; [exact N|exact E|reflexivity..].
    + eapply moved_with; [exact N| |reflexivity|reflexivity]. intros _. right. reflexivity.
  - eapply moved_done; [exact N|exact E|reflexivity..].
  - eapply moved_done; [exact N|exact E|reflexivity..].
  - eapply moved_handled; [exact N|exact E].
  - destruct (received_same w j (inr (Z.to_nat v))) as [D H]. pose proof (moved_received w i x j (inr (Z.to_nat v)) N) as M0. destruct (H i x N) as (y & N' & Q & _).
    destruct (nth_error (w_ph (received w j (inr (Z.to_nat v)))) i0) as [y0|] eqn:E; [|exact M0]. destruct y0; try exact M0.
    destruct (moved_handled _ i y i0 v0 v0 true N' E) as (y' & N2 & [[Q2 D2]|(f & D2 & T & R & Z)]).
    + exists y'. split; [exact N2|]. left. rewrite <- Q, <- D. auto.
    + exists y'. split; [exact N2|]. right. exists f. rewrite <- Q, <- D. auto.
  - eapply moved_with; [exact N| |reflexivity|reflexivity]. intros _. right. reflexivity.
  - eapply moved_with; [exact N| |reflexivity|reflexivity]. intros _. right. reflexivity.
Qed.
Lemma moved_step : forall me w a w' i x, wexec me w a = Some w' -> nth_error (w_ph w) i = Some x -> (forall rq, a <> WCall i rq) -> moved i x w w'.
Proof.
  intros me w a w' i x E N C. unfold wexec in E. destruct (w_dead w); [discriminate|]. destruct a as [|j rq|j src b|j ok|j|a].
  - destruct (ModelTsm.exec _ _) as [s|]; [|discriminate]. injection E as <-. exists x. cbn [w_ph]. split; [rewrite nth_error_app1; [exact N|apply nth_error_Some; congruence]|].
    left. split; left; reflexivity.
  - destruct (nth_error (w_ph w) j) as [y|] eqn:Ej; [|discriminate]. destruct y; try discriminate. destruct (ModelTsm.exec _ _) as [s|]; [|discriminate]. injection E as <-.
    eapply moved_with; [exact N| |reflexivity|reflexivity]. intros ->. exfalso. exact (C rq eq_refl).
  - destruct (nth_error (w_ph w) j) as [y|] eqn:Ej; [|discriminate]. destruct y; try discriminate. destruct (handleMsg _ src b) as [eff p]. destruct (delivery eff) as [[id pl]|].
    + destruct (ModelTsm.exec _ _) as [s|]; [|discriminate]. injection E as <-. eapply moved_with; [exact N| |reflexivity|reflexivity]. intros _. right. reflexivity.
    + destruct (ModelTsm.sy_crash _); [discriminate|]. injection E as <-. apply moved_same; [exact N| |]; destruct p; reflexivity.
  - destruct (nth_error (w_ph w) j) as [y|] eqn:Ej; [|discriminate]. destruct y as [|rq|rq id g h tr k| | | |]; try discriminate. destruct k as [r|d k]; [discriminate|]. destruct ok.
    + destruct (ModelTsm.exec _ _) as [s|]; [|discriminate]. injection E as <-. eapply moved_with; [exact N| |reflexivity|reflexivity]. intros ->. rewrite Ej in N. injection N as <-. left. reflexivity.
    + destruct (ModelTsm.sy_crash _); [discriminate|]. injection E as <-. eapply moved_with; [exact N| |reflexivity|reflexivity]. intros ->. rewrite Ej in N. injection N as <-. left. reflexivity.
  - destruct (nth_error (w_ph w) j) as [y|] eqn:Ej; [|discriminate]. destruct y as [|rq|rq id g h tr k| | | |]; try discriminate. destruct k as [r|d k]; [|discriminate].
    destruct r; try discriminate.
    1,2: (destruct (ModelTsm.exec _ _) as [s|]; [|discriminate]; injection E as <-; eapply moved_with; [exact N| |reflexivity|reflexivity]; intros ->; rewrite Ej in N; injection N as <-; left; reflexivity).
    destruct (ModelTsm.sy_crash _); [discriminate|]. injection E as <-. apply moved_same; [exact N|reflexivity..].
  - destruct (inside a); [|discriminate]. destruct (ModelTsm.exec (w_tsm w) a) as [s|] eqn:X; [|discriminate]. cbv zeta in E.
    destruct (Nat.eqb _ _); [injection E as <-; apply moved_same; [exact N|reflexivity..]|].
    destruct (ModelTsm.sy_log s) as [|e r]; [injection E as <-; apply moved_same; [exact N|reflexivity..]|]. injection E as <-.
    apply (moved_back w i x (with_tsm w s)); [reflexivity|reflexivity|]. apply moved_returned. exact N.
Qed.
Lemma own_done : forall i f l, filter (fun f => Nat.eqb (fi_thread f) i) (f :: l) = if Nat.eqb (fi_thread f) i then f :: filter (fun f => Nat.eqb (fi_thread f) i) l else filter (fun f => Nat.eqb (fi_thread f) i) l.
Proof. reflexivity. Qed.
Definition tmoved (i : nat) (x : phase) (t t' : timed) : Prop :=
  exists x', nth_error (w_ph (z_w (t_z t'))) i = Some x' /\
   ((req_of x' = req_of x \/ req_of x' = None) /\ returned_of i t' = returned_of i t
   \/ exists f, returned_of i t' = f :: returned_of i t /\ req_of x = Some (fi_req f) /\ req_of x' = None).
Lemma tmoved_of : forall i x t t', moved i x (z_w (t_z t)) (z_w (t_z t')) -> tmoved i x t t'.
Proof.
  intros i x t t' (x' & N & H). exists x'. split; [exact N|]. unfold returned_of. destruct H as [[Q [D|(f & D & T)]]|(f & D & T & R & Q)]; rewrite D.
  - left. auto.
  - left. rewrite own_done, (proj2 (Nat.eqb_neq _ _) T). auto.
  - right. exists f. rewrite own_done, (proj2 (Nat.eqb_eq _ _) T). auto.
Qed.
Lemma tmoved_step : forall bcast me t a t' i x, texec bcast me t a = Some t' -> nth_error (w_ph (z_w (t_z t))) i = Some x -> (forall rq, a <> TDo (ZRequest i rq)) -> tmoved i x t t'.
Proof.
  intros bcast me t a t' i x E N C. apply tmoved_of. destruct a as [a|d].
  2: { cbn [texec] in E. destruct (0 <? d); [|discriminate]. injection E as <-. cbn [t_z]. apply moved_same; [exact N|reflexivity..]. }
  destruct (texec_do _ _ _ _ _ E) as (z & _ & Z & ->). cbn [set_z t_z]. unfold zexec in Z. destruct (z_dead (t_z t)); [discriminate|].
  assert (SAME : moved i x (z_w (t_z t)) (z_w (t_z t))) by (apply moved_same; [exact N|reflexivity..]).
  destruct a as [|j rq|j q|j src b|j|a|a].
  - destruct (wexec me (z_w (t_z t)) WSpawn) as [w|] eqn:W; [|discriminate]. destruct (yexec _ _ _ _); [|discriminate]. injection Z as <-. apply (moved_step _ _ _ _ _ _ W N). discriminate.
  - destruct (z_free _ _); [|discriminate]. unfold z_do_w in Z. destruct (wexec _ _ _) as [w|] eqn:W; [|discriminate]. injection Z as <-. apply (moved_step _ _ _ _ _ _ W N).
    intros rq' [= -> ->]. exact (C _ eq_refl).
  - destruct (z_free _ _); [|discriminate]. unfold z_do_y in Z. destruct (yexec _ _ _ _); [|discriminate]. injection Z as <-. exact SAME.
  - destruct (z_free _ _); [|discriminate]. destruct (yexec _ _ _ _); [|discriminate]. injection Z as <-. exact SAME.
  - destruct (nth_error (y_ph _) j) as [[]|]; try discriminate. destruct (nth_error (z_rest _) j) as [[[src b]|]|]; try discriminate.
    destruct (wexec _ _ _) as [w|] eqn:W; [|discriminate]. injection Z as <-. apply (moved_step _ _ _ _ _ _ W N). discriminate.
  - destruct (w_step a) eqn:S; [|discriminate]. unfold z_do_w in Z. destruct (wexec _ _ _) as [w|] eqn:W; [|discriminate]. injection Z as <-. apply (moved_step _ _ _ _ _ _ W N).
    intros rq ->. discriminate S.
  - destruct (y_step a); [|discriminate]. unfold z_do_y in Z. destruct (yexec _ _ _ _); [|discriminate]. injection Z as <-. exact SAME.
Qed.

(** ** The requests of a goroutine that performs a script are those of the script *)
Fixpoint consumed {A} (s : script A) (fs : list finished) (s' : script A) : Prop :=
  match fs with
  | [] => s' = s
  | f :: r => exists k, s = SCall (fi_req f) k /\ consumed (k (fi_result f)) r s'
  end.
Definition keeps {A} (i : nat) (t : timed) (s : script A) : Prop :=
  exists x, nth_error (w_ph (z_w (t_z t))) i = Some x /\ match req_of x with None => True | Some rq => exists k, s = SCall rq k end.
Lemma keeps_step : forall A bcast me i t (s : script A) a t', texec bcast me t a = Some t' -> by_script i s a -> keeps i t s ->
  (returned_of i t' = returned_of i t /\ keeps i t' s) \/ (exists f k, returned_of i t' = f :: returned_of i t /\ s = SCall (fi_req f) k /\ keeps i t' (k (fi_result f))).
Proof.
  intros A bcast me i t s a t' E B (x & N & K).
  assert (D : (exists rq, a = TDo (ZRequest i rq)) \/ forall rq, a <> TDo (ZRequest i rq)).
  { destruct a as [a|d]; [|right; discriminate]. destruct a as [|j rq|j q|j src b|j|a|a]; try (right; discriminate). destruct (Nat.eq_dec j i) as [->|D]; [left; eauto|right; intros rq' [= -> ->]; auto]. }
  destruct D as [(rq & ->)|D].
  - left. destruct (begins _ _ _ _ _ _ E) as ((N1 & Q1 & _) & _ & _ & R). split; [exact R|]. exists (NId rq). split; [exact N1|]. cbn. exact (B eq_refl).
  - destruct (tmoved_step _ _ _ _ _ _ _ E N D) as (x' & N' & [[Q R]|(f & R & Q & Q')]).
    + left. split; [exact R|]. exists x'. split; [exact N'|]. destruct Q as [-> | ->]; [exact K|exact I].
    + right. rewrite Q in K. destruct K as (k & ->). exists f, k. split; [exact R|]. split; [reflexivity|]. exists x'. split; [exact N'|]. rewrite Q'. exact I.
Qed.
Lemma performs_run : forall A bcast me i l t (s : script A) t' s' fs, performs bcast me i t s l t' s' fs -> trun bcast me t l = Some t'.
Proof.
  intros A bcast me i l. induction l as [|a l IH]; intros t s t' s' fs; cbn [performs trun]; [intros (-> & _); reflexivity|].
  intros (_ & t1 & -> & [(_ & P)|(f & rq & k & fs' & _ & _ & _ & P)]); eapply IH; exact P.
Qed.
Lemma one_longer : forall A (x : A) l, x :: l <> l.
Proof. intros A x l H. apply (f_equal (@length A)) in H. cbn in H. lia. Qed.
Lemma performs_follows : forall A bcast me i l t (s : script A) t' s' fs, performs bcast me i t s l t' s' fs -> keeps i t s ->
  consumed s fs s' /\ keeps i t' s' /\ returned_of i t' = rev fs ++ returned_of i t.
Proof.
  intros A bcast me i l. induction l as [|a l IH]; intros t s t' s' fs; cbn [performs].
  - intros (-> & -> & ->) K. cbn. auto.
  - intros (B & t1 & E & P) K. destruct (keeps_step _ _ _ _ _ _ _ _ E B K) as [(R & K1)|(f1 & k1 & R & -> & K1)].
    + destruct P as [(_ & P)|(f & rq & k & fs' & R2 & _)]; [|exfalso; rewrite R in R2; exact (one_longer _ _ _ (eq_sym R2))].
      destruct (IH _ _ _ _ _ P K1) as (H1 & H2 & H3). rewrite R in H3. auto.
    + destruct P as [(R2 & P)|(f & rq & k & fs' & R2 & S & -> & P)]; [exfalso; rewrite R in R2; exact (one_longer _ _ _ R2)|].
      rewrite R in R2. injection R2 as <-. injection S as <- <-. destruct (IH _ _ _ _ _ P K1) as (H1 & H2 & H3).
      split; [exists k1; auto|]. split; [exact H2|]. rewrite H3, R. cbn [rev]. rewrite <- app_assoc. reflexivity.
Qed.
Lemma steps_run : forall bcast me l t t', trun bcast me t l = Some t' -> zrun bcast me (t_z t) (steps l) = Some (t_z t').
Proof.
  intros bcast me l. induction l as [|a l IH]; intros t t' H; cbn [trun] in H; [injection H as <-; reflexivity|].
  destruct (texec bcast me t a) as [t1|] eqn:E; [|discriminate]. destruct a as [a|d]; cbn [steps flat_map app].
  - destruct (texec_do _ _ _ _ _ E) as (z & _ & Z & ->). cbn [zrun]. rewrite Z. exact (IH _ _ H).
  - cbn [texec] in E. destruct (0 <? d); [|discriminate]. injection E as <-. exact (IH _ _ H).
Qed.
Lemma steps_app : forall l l', steps (l ++ l') = steps l ++ steps l'.
Proof. intros. unfold steps. apply flat_map_app. Qed.
Lemma trun_seq : forall bcast me l l' t t1, trun bcast me t l = Some t1 -> trun bcast me t (l ++ l') = trun bcast me t1 l'.
Proof.
  intros bcast me l l'. induction l as [|a l IH]; intros t t1 H; cbn [trun app] in *; [injection H as <-; reflexivity|].
  destruct (texec bcast me t a); [|discriminate]. exact (IH _ _ H).
Qed.
Definition no_env : env := mkEnv None (fun _ _ => mkAtt false None).
Lemma consumed_plays : forall A me envs (fs : list finished) es (s : script A) r k, consumed s fs (SEnd r) ->
  Forall2 (fun f e => alone e me (fi_req f) = (fi_sent f, fi_result f)) fs es -> (forall j, envs (k + j)%nat = nth j es no_env) ->
  plays envs me k s = ((k + length fs)%nat, (flat_map fi_sent fs, r)).
Proof.
  intros A me envs fs. induction fs as [|f fs IH]; intros es s r k C F N; cbn [consumed] in C.
  - subst s. cbn. rewrite Nat.add_0_r. reflexivity.
  - destruct C as (c & -> & C). inversion F as [|f' e fs' es' HE HF]; subst. cbn [plays].
    pose proof (N 0%nat) as N0. rewrite Nat.add_0_r in N0. cbn [nth] in N0. rewrite N0, HE.
    rewrite (IH es' _ r (S k) C HF); [cbn [length flat_map]; f_equal; lia|]. intros j. specialize (N (S j)). cbn [nth] in N. rewrite <- N. f_equal. lia.
Qed.
Lemma script_alone : forall A bcast me l0 t0 i l t' (s : script A) r fs, trun bcast me t_init l0 = Some t0 -> z_free (t_z t0) i = true ->
  performs bcast me i t0 s l t' (SEnd r) fs ->
  exists envs, plays envs me 0 s = (length fs, (flat_map fi_sent fs, r)) /\
    (forall n f, nth_error fs n = Some f -> ev_id (envs n) = fi_id f) /\
    (forall n k g p, at_reply (ev_att (envs n) k g) = Some p -> exists id, answered_in (steps (l0 ++ l)) id p) /\
    (forallb (fun a => negb (pool_reuse a)) (steps (l0 ++ l)) = true -> forall n k g p, at_reply (ev_att (envs n) k g) = Some p ->
       exists id, ev_id (envs n) = Some id /\ answered_in (steps (l0 ++ l)) id p).
Proof.
  intros A bcast me l0 t0 i l t' s r fs R0 FR P.
  assert (K : keeps i t0 s). { destruct (free_parts _ _ FR) as (N & _). exists NFree. split; [exact N|exact I]. }
  destruct (performs_follows _ _ _ _ _ _ _ _ _ _ P K) as (C & _ & RO). pose proof (performs_run _ _ _ _ _ _ _ _ _ _ P) as R1.
  assert (RZ : zrun bcast me z_init (steps (l0 ++ l)) = Some (t_z t')).
  { apply (steps_run bcast me (l0 ++ l) t_init). rewrite (trun_seq _ _ _ _ _ _ R0). exact R1. }
  set (L := steps (l0 ++ l)) in *.
  assert (IN : forall f, In f fs -> In f (w_done (z_w (t_z t')))).
  { intros f Hf. assert (H : In f (returned_of i t')) by (rewrite RO; apply in_or_app; left; apply in_rev in Hf; exact Hf). apply filter_In in H. exact (proj1 H). }
  assert (ES : exists es, Forall2 (fun f e => alone e me (fi_req f) = (fi_sent f, fi_result f)) fs es /\
    (forall n f, nth_error fs n = Some f -> ev_id (nth n es no_env) = fi_id f) /\
    Forall (fun e => (forall k g p, at_reply (ev_att e k g) = Some p -> exists id, answered_in L id p) /\
      (forallb (fun a => negb (pool_reuse a)) L = true -> forall k g p, at_reply (ev_att e k g) = Some p -> exists id, ev_id e = Some id /\ answered_in L id p)) es).
  { clear C RO P R1. induction fs as [|f fs IH]; [exists []; split; [constructor|]; split; [intros [|n]; discriminate|constructor]|].
    destruct IH as (es & E1 & E0 & E2); [intros; apply IN; right; assumption|].
    destruct (whole_request_result _ _ _ _ f RZ (IN f (or_introl eq_refl))) as (_ & e & EI & AL & A1 & A2).
    exists (e :: es). split; [constructor; auto|]. split; [|constructor; auto]. intros [|n] g Hn; cbn [nth_error nth] in *; [injection Hn as <-; exact EI|auto]. }
  destruct ES as (es & F2 & F0 & FA). exists (fun n => nth n es no_env). split; [apply (consumed_plays _ _ _ _ es _ _ 0 C F2); intros; reflexivity|].
  split; [exact F0|]. split.
  - intros n k g p H. destruct (nth_in_or_default n es no_env) as [Hn|Hn]; [|rewrite Hn in H; discriminate H].
    rewrite Forall_forall in FA. exact (proj1 (FA _ Hn) k g p H).
  - intros NR n k g p H. destruct (nth_in_or_default n es no_env) as [Hn|Hn]; [|rewrite Hn in H; discriminate H].
    rewrite Forall_forall in FA. exact (proj2 (FA _ Hn) NR k g p H).
Qed.
Lemma objects_shared : forall bcast me l0 t0 i l t' fuel order dev r fs, trun bcast me t_init l0 = Some t0 -> z_free (t_z t0) i = true ->
  performs bcast me i t0 (Objects_script fuel order dev) l t' (SEnd r) fs ->
  exists envs, Objects fuel order envs me dev = (flat_map fi_sent fs, r) /\
    (forall n f, nth_error fs n = Some f -> ev_id (envs n) = fi_id f) /\
    (forall n k g p, at_reply (ev_att (envs n) k g) = Some p -> exists id, answered_in (steps (l0 ++ l)) id p) /\
    (forallb (fun a => negb (pool_reuse a)) (steps (l0 ++ l)) = true -> forall n k g p, at_reply (ev_att (envs n) k g) = Some p ->
       exists id, ev_id (envs n) = Some id /\ answered_in (steps (l0 ++ l)) id p).
Proof.
  intros bcast me l0 t0 i l t' fuel order dev r fs R0 FR P. destruct (script_alone _ _ _ _ _ _ _ _ _ _ _ R0 FR P) as (envs & E & H). exists envs. rewrite <- plays_objects, E. auto.
Qed.

(** ** How long a script takes *)
Definition busy {A} (i : nat) (B : Z) (t : timed) (s : script A) : Prop :=
  (exists x, nth_error (w_ph (z_w (t_z t))) i = Some x /\ req_of x = None /\ t_now t <= B) \/
  (exists rq k x p c, s = SCall rq k /\ calling i rq t x p /\ c <= B /\ high c (id_wait rq) x p (t_now t) (t_due t i)).
Lemma limit_pos : forall rq, 0 <= limit rq.
Proof. intros []; discriminate. Qed.
Lemma limits_pos : forall fs, 0 <= limits fs.
Proof. induction fs as [|f fs IH]; [discriminate|]. unfold limits in *. cbn [fold_right]. pose proof (limit_pos (fi_req f)). lia. Qed.
Lemma within : forall bcast me t i rq x p c, zreach bcast me (t_z t) -> z_dead (t_z t) = false -> calling i rq t x p ->
  high c (id_wait rq) x p (t_now t) (t_due t i) -> t_now t <= c + limit rq.
Proof.
  intros bcast me t i rq x p c RE LV (N & Q & Np) HI. pose proof (zreach_up _ _ _ RE LV) as U.
  pose proof (tried _ _ _ _ _ U N Q) as A. destruct (in_phase _ _ _ _ U N) as (p0 & Np0 & F). rewrite Np in Np0. injection Np0 as <-.
  assert (LM : limit rq = id_wait rq + 5000 * Z.of_nat (attempts rq)) by (destruct rq; reflexivity).
  destruct x; try discriminate Q; cbn [high fits] in *; try lia; destruct p; try (destruct F; fail); lia.
Qed.
Lemma pause_step : forall A bcast me i t (s : script A) a l t1 s1, without_pause bcast me i t s (a :: l) -> by_script i s a -> texec bcast me t a = Some t1 ->
  (returned_of i t1 = returned_of i t /\ s1 = s \/ exists f rq k, returned_of i t1 = f :: returned_of i t /\ s = SCall rq k /\ s1 = k (fi_result f)) ->
  without_pause bcast me i t1 s1 l.
Proof.
  intros A bcast me i t s a l t1 s1 W B E D la d lb ta sa fa -> P. destruct D as [(R & ->)|(f & rq & k & R & -> & ->)].
  - apply (W (a :: la) d lb ta sa fa eq_refl). cbn [performs]. split; [exact B|]. exists t1. auto.
  - apply (W (a :: la) d lb ta sa (f :: fa) eq_refl). cbn [performs]. split; [exact B|]. exists t1. split; [exact E|]. right. exists f, rq, k, fa. auto.
Qed.
Lemma script_time : forall A bcast me i l t (s : script A) t' s' fs B, zreach bcast me (t_z t) -> performs bcast me i t s l t' s' fs ->
  prompt bcast me t l -> no_loop bcast me i t l -> without_pause bcast me i t s l -> z_dead (t_z t') = false -> busy i B t s ->
  t_now t' <= B + limits fs + next_limit s'.
Proof.
  intros A bcast me i l. induction l as [|a l IH]; intros t s t' s' fs B RE P PR NL WP LV BU; pose proof (performs_run _ _ _ _ _ _ _ _ _ _ P) as RU; cbn [performs] in P.
  - destruct P as (-> & -> & ->). change (limits []) with 0. destruct BU as [(x & _ & _ & T)|(rq & k & x & p & c & -> & CA & LC & HI)].
    + assert (0 <= next_limit s) by (destruct s; cbn; [lia|apply limit_pos]). lia.
    + pose proof (within _ _ _ _ _ _ _ _ RE LV CA HI). cbn [next_limit]. lia.
  - destruct P as (BY & t1 & E & P). cbn [trun] in RU. rewrite E in RU. pose proof (live_back _ _ _ _ _ RU LV) as LV1.
    assert (LV0 : z_dead (t_z t) = false) by (apply (live_back bcast me [a] t t1); [cbn [trun]; rewrite E; reflexivity|exact LV1]).
    cbn [prompt] in PR. destruct PR as [PA PR]. pose proof (reach_step _ _ _ _ _ RE E) as RE1.
    assert (NL1 : no_loop bcast me i t1 l) by (intros la lb ta x -> R; apply (NL (a :: la) lb ta x eq_refl); cbn [trun]; rewrite E; exact R).
    assert (GO : forall s1 fs1 B1, performs bcast me i t1 s1 l t' s' fs1 ->
      (returned_of i t1 = returned_of i t /\ s1 = s \/ exists f rq k, returned_of i t1 = f :: returned_of i t /\ s = SCall rq k /\ s1 = k (fi_result f)) ->
      busy i B1 t1 s1 -> t_now t' <= B1 + limits fs1 + next_limit s').
    { intros s1 fs1 B1 P1 D BU1. apply (IH t1 s1 t' s' fs1 B1 RE1 P1 (PR _ E) NL1); [|exact LV|exact BU1]. exact (pause_step _ _ _ _ _ _ _ _ _ _ WP BY E D). }
    destruct BU as [(x & N & Q & T)|(rq & k & x & p & c & -> & CA & LC & HI)].
    + destruct a as [a|d].
      2: { exfalso. destruct (WP [] d l t s [] eq_refl) as (x0 & rq & N0 & Q0); [cbn; auto|]. congruence. }
      pose proof (now_do _ _ _ _ _ E) as NW.
      assert (D : (exists rq, a = ZRequest i rq) \/ forall rq, TDo a <> TDo (ZRequest i rq)).
      { destruct a as [|j rq|j q|j src b|j|a|a]; try (right; discriminate). destruct (Nat.eq_dec j i) as [->|D]; [left; eauto|right; intros rq' [= -> ->]; auto]. }
      destruct D as [(rq & ->)|D].
      * destruct (begins _ _ _ _ _ _ E) as (CA & _ & DU & R). destruct (BY eq_refl) as (k & ->).
        destruct P as [(_ & P)|(f & rq' & k' & fs' & R2 & _)]; [|exfalso; rewrite R in R2; exact (one_longer _ _ _ (eq_sym R2))].
        apply (GO _ _ B P); [left; auto|]. right. exists rq, k, (NId rq), ModelTsm.IDSpace, (t_now t). split; [reflexivity|]. split; [exact CA|]. split; [exact T|].
        cbn [high]. rewrite DU, NW. destruct rq; cbn [id_wait]; lia.
      * destruct (tmoved_step _ _ _ _ _ _ _ E N D) as (x' & N' & [[Q' R]|(f & _ & Q' & _)]); [|congruence].
        destruct P as [(_ & P)|(f & rq' & k' & fs' & R2 & _)]; [|exfalso; rewrite R in R2; exact (one_longer _ _ _ (eq_sym R2))].
        apply (GO _ _ B P); [left; auto|]. left. exists x'. split; [exact N'|]. split; [destruct Q'; congruence|lia].
    + pose proof (zreach_up _ _ _ RE LV0) as U.
      assert (F : exists ins, fits ins x p).
      { destruct CA as (N & Q & Np). destruct (in_phase _ _ _ _ U N) as (p0 & Np0 & F). rewrite Np in Np0. injection Np0 as <-. eauto. }
      destruct F as (ins & F). destruct a as [a|d].
      * pose proof (now_do _ _ _ _ _ E) as NW.
        destruct (seen_step _ _ _ _ _ _ _ _ _ RE E LV1 CA) as [(CA' & DU & RO')|[(b & x' & p' & H1 & CA' & DU & FI & RO')|(b & f & EN & FI & RO')]].
        -- destruct P as [(_ & P)|(f & rq' & k' & fs' & R2 & _)]; [|exfalso; rewrite RO' in R2; exact (one_longer _ _ _ (eq_sym R2))].
           apply (GO _ _ B P); [left; auto|]. right. exists rq, k, x, p, c. rewrite DU, NW. auto.
        -- destruct P as [(_ & P)|(f & rq' & k' & fs' & R2 & _)]; [|exfalso; rewrite RO' in R2; exact (one_longer _ _ _ (eq_sym R2))].
           apply (GO _ _ B P); [left; auto|]. right. exists rq, k, x', p', c. rewrite DU, NW. split; [reflexivity|]. split; [exact CA'|]. split; [exact LC|].
           exact (high_hop _ _ _ _ _ _ _ _ _ _ _ F H1 HI).
        -- destruct P as [(R2 & _)|(f' & rq' & k' & fs' & R2 & S & -> & P)]; [exfalso; rewrite RO' in R2; exact (one_longer _ _ _ R2)|].
           pose proof R2 as R3. rewrite RO' in R2. injection R2 as <-. injection S as <- <-. pose proof (within _ _ _ _ _ _ _ _ RE LV0 CA HI) as WI.
           destruct (req_end _ _ _ _ _ _ EN (proj1 (proj2 CA))) as [FQ _]. unfold limits. cbn [fold_right]. fold (limits fs'). rewrite FQ.
           cut (t_now t' <= B + limit rq + limits fs' + next_limit s'); [lia|]. apply (GO _ _ _ P); [right; exists f, rq, k; auto|].
           left. destruct (tmoved_step _ _ _ _ _ _ _ E (proj1 CA)) as (x' & N' & [[_ R]|(f2 & R & _ & Q')]).
           ++ intros rq' [= ->]. destruct (begins _ _ _ _ _ _ E) as (_ & _ & _ & R). rewrite R in R3. exact (one_longer _ _ _ (eq_sym R3)).
           ++ exfalso. rewrite R in R3. exact (one_longer _ _ _ (eq_sym R3)).
           ++ exists x'. split; [exact N'|]. split; [exact Q'|lia].
      * pose proof E as E0. cbn [texec] in E. destruct (0 <? d) eqn:D; [|discriminate]. injection E as <-.
        destruct P as [(_ & P)|(f & rq' & k' & fs' & R2 & _)]; [|exfalso; exact (one_longer _ _ _ (eq_sym R2))].
        apply (GO _ _ B P); [left; auto|]. right. exists rq, k, x, p, c. split; [reflexivity|]. split; [exact CA|]. split; [exact LC|]. cbn [t_now t_due].
        destruct CA as (N & Q & Np). pose proof (NL [] _ t x eq_refl eq_refl N) as LX.
        destruct (idle_waits bcast me t d i x p rq RE LV0) as [W1 W2]; auto; [lia|]. exact (high_pass _ _ _ _ _ _ _ _ F HI W1 W2).
Qed.
Lemma script_in_time : forall A bcast me l0 t0 i l t' (s s' : script A) fs, trun bcast me t_init l0 = Some t0 -> z_free (t_z t0) i = true ->
  performs bcast me i t0 s l t' s' fs -> prompt bcast me t0 l -> no_loop bcast me i t0 l -> without_pause bcast me i t0 s l -> z_dead (t_z t') = false ->
  t_now t' - t_now t0 <= limits fs + next_limit s'.
Proof.
  intros A bcast me l0 t0 i l t' s s' fs R0 FR P PR NL WP LV. destruct (free_parts _ _ FR) as (N & _).
  pose proof (script_time _ _ _ _ _ _ _ _ _ _ (t_now t0) (reach_run _ _ _ _ _ (reach_init bcast me) R0) P PR NL WP LV) as H.
  cut (t_now t' <= t_now t0 + limits fs + next_limit s'); [lia|]. apply H. left. exists NFree. split; [exact N|]. split; [reflexivity|lia].
Qed.

(** ** A goroutine that has returned was never in a decoder's loop *)
Lemma loop_stays : forall bcast me t a t' i x, zreach bcast me (t_z t) -> texec bcast me t a = Some t' -> z_dead (t_z t') = false ->
  nth_error (w_ph (z_w (t_z t))) i = Some x -> looping x = true -> nth_error (w_ph (z_w (t_z t'))) i = Some x.
Proof.
  intros bcast me t a t' i x RE T LV' N LX. destruct a as [a|d].
  2: { cbn [texec] in T. destruct (0 <? d); [|discriminate]. injection T as <-. exact N. }
  assert (Q : exists rq, req_of x = Some rq) by (destruct x; try discriminate LX; eexists; reflexivity). destruct Q as (rq & Q).
  destruct (texec_do _ _ _ _ _ T) as (z & M & E & ->). cbn [set_z t_z] in *. pose proof (zexec_live _ _ _ _ _ E) as LV. pose proof (zreach_up _ _ _ RE LV) as U.
  destruct (z_of i a) eqn:O.
  - exfalso. destruct (own_is_w _ _ _ _ _ _ _ _ RE E N Q O) as (b & -> & EW & OW). pose proof (zreach_up _ _ _ (zreach_step _ _ _ _ _ RE E) LV') as U'.
    destruct (in_phase _ _ _ _ U N) as (p & Np & F).
    destruct x as [|rq'|rq' id g h tr q|rq' id g h tr k|rq' id g h tr r|v|]; try discriminate LX. destruct q as [r|]; [|discriminate LX]. destruct r; try discriminate LX.
    cbn [fits] in F. subst p. destruct (own_moves _ _ _ _ _ _ _ _ U U' EW N Q Np OW) as [(f & _ & EN & _)|(x' & p' & _ & _ & H & _)]; [inversion EN|].
    inversion H as [x0 p0 b0 p0' PH| | | | | |]; subst; [inversion PH as [| | | | | | |? ? A _]; discriminate A|].
    unfold wexec in EW. rewrite N in EW. destruct (w_dead _); discriminate EW.
  - exact (proj1 (z_other _ _ _ _ _ _ _ _ RE E N Q O)).
Qed.
Lemma loop_stays_run : forall bcast me l t t' i x, zreach bcast me (t_z t) -> trun bcast me t l = Some t' -> z_dead (t_z t') = false ->
  nth_error (w_ph (z_w (t_z t))) i = Some x -> looping x = true -> nth_error (w_ph (z_w (t_z t'))) i = Some x.
Proof.
  intros bcast me l. induction l as [|a l IH]; intros t t' i x RE H LV N LX; cbn [trun] in H; [injection H as <-; exact N|].
  destruct (texec bcast me t a) as [t1|] eqn:E; [|discriminate]. pose proof (live_back _ _ _ _ _ H LV) as LV1.
  exact (IH _ _ _ _ (reach_step _ _ _ _ _ RE E) H LV (loop_stays _ _ _ _ _ _ _ RE E LV1 N LX) LX).
Qed.
Lemma ended_no_loop : forall A bcast me l t (s : script A) t' r fs i, zreach bcast me (t_z t) -> keeps i t s -> performs bcast me i t s l t' (SEnd r) fs ->
  z_dead (t_z t') = false -> no_loop bcast me i t l.
Proof.
  intros A bcast me l t s t' r fs i RE K P LV la lb ta x -> R N. destruct (looping x) eqn:LX; [|reflexivity]. exfalso.
  pose proof (performs_run _ _ _ _ _ _ _ _ _ _ P) as RU. rewrite (trun_seq _ _ _ _ _ _ R) in RU.
  pose proof (loop_stays_run _ _ _ _ _ _ _ (reach_run _ _ _ _ _ RE R) RU LV N LX) as N'.
  destruct (performs_follows _ _ _ _ _ _ _ _ _ _ P K) as (_ & (x' & Nx & Kx) & _). rewrite N' in Nx. injection Nx as <-.
  destruct x as [| |? ? ? ? ? q| | | |]; try discriminate LX. cbn [req_of] in Kx. destruct Kx as (k & S). discriminate S.
Qed.
Lemma script_returned_in_time : forall A bcast me l0 t0 i l t' (s : script A) r fs, trun bcast me t_init l0 = Some t0 -> z_free (t_z t0) i = true ->
  performs bcast me i t0 s l t' (SEnd r) fs -> prompt bcast me t0 l -> without_pause bcast me i t0 s l -> z_dead (t_z t') = false ->
  t_now t' - t_now t0 <= limits fs.
Proof.
  intros A bcast me l0 t0 i l t' s r fs R0 FR P PR WP LV. pose proof (reach_run _ _ _ _ _ (reach_init bcast me) R0) as RE.
  assert (K : keeps i t0 s). { destruct (free_parts _ _ FR) as (N & _). exists NFree. split; [exact N|exact I]. }
  pose proof (script_in_time _ _ _ _ _ _ _ _ _ _ _ R0 FR P PR (ended_no_loop _ _ _ _ _ _ _ _ _ _ RE K P LV) WP LV) as H. cbn [next_limit] in H. lia.
Qed.

(** ** How many requests Objects makes *)
Lemma consumed_bind : forall A B (s : script A) (f : A -> script B) fs r, consumed (sbind s f) fs (SEnd r) ->
  exists fs1 fs2 r1, fs = fs1 ++ fs2 /\ consumed s fs1 (SEnd r1) /\ match r1 with COk a => consumed (f a) fs2 (SEnd r) | _ => fs2 = [] /\ forall b, r <> COk b end.
Proof.
  intros A B s f. induction s as [r1|rq c IH]; intros fs r H.
  - exists [], fs, r1. split; [reflexivity|]. split; [reflexivity|]. cbn [sbind] in H.
    destruct r1; cbn [sret] in H; [exact H|..]; (destruct fs as [|g fs]; cbn [consumed] in H; [injection H as ->; split; [reflexivity|discriminate]|destruct H as (k & H & _); discriminate H]).
  - destruct fs as [|g fs]; cbn [sbind consumed] in H; [discriminate H|]. destruct H as (k & E & H). injection E as E1 <-. destruct (IH _ _ _ H) as (fs1 & fs2 & r1 & -> & C & M).
    exists (g :: fs1), fs2, r1. split; [reflexivity|]. split; [|exact M]. exists c. rewrite E1. auto.
Qed.
Lemma consumed_bind_ok : forall A B (s : script A) (f : A -> script B) fs b, consumed (sbind s f) fs (SEnd (COk b)) ->
  exists fs1 fs2 a, fs = fs1 ++ fs2 /\ consumed s fs1 (SEnd (COk a)) /\ consumed (f a) fs2 (SEnd (COk b)).
Proof.
  intros A B s f fs b H. destruct (consumed_bind _ _ _ _ _ _ H) as (fs1 & fs2 & r1 & E & C & M).
  destruct r1 as [a|e| |]; [exists fs1, fs2, a; auto|..]; exfalso; exact (proj2 M b eq_refl).
Qed.
Lemma consumed_end : forall A (r r' : outcome A) fs, consumed (SEnd r) fs (SEnd r') -> fs = [] /\ r = r'.
Proof. intros A r r' [|f fs] H; cbn [consumed] in H; [injection H as ->; auto|destruct H as (k & H & _); discriminate H]. Qed.
Definition a_multi (f : finished) : Prop := exists fuel dev rp, fi_req f = RqReadMulti fuel dev rp.
Lemma consumed_read : forall dev rp fs x, consumed (read_script dev rp) fs (SEnd (COk x)) -> exists f, fs = [f] /\ fi_req f = RqRead dev rp /\ fi_result f = COk (AnRead x).
Proof.
  intros dev rp fs x H. destruct fs as [|f fs]; cbn [consumed read_script] in H; [discriminate H|]. destruct H as (k & E & H). injection E as E <-.
  destruct (consumed_end _ _ _ _ H) as [-> R]. exists f. split; [reflexivity|]. split; [auto|]. destruct (fi_result f) as [[]|e| |]; try discriminate R. injection R as ->. reflexivity.
Qed.
Lemma consumed_multi : forall fuel dev rp fs x, consumed (multi_script fuel dev rp) fs (SEnd (COk x)) -> exists f, fs = [f] /\ a_multi f.
Proof.
  intros fuel dev rp fs x H. destruct fs as [|f fs]; cbn [consumed multi_script] in H; [discriminate H|]. destruct H as (k & E & H). injection E as E <-.
  destruct (consumed_end _ _ _ _ H) as [-> R]. exists f. split; [reflexivity|]. exists fuel, dev, rp. auto.
Qed.
Lemma consumed_len : forall dev fs n, consumed (objectListLen_script dev) fs (SEnd (COk n)) ->
  exists f pd p ps, fs = [f] /\ limit (fi_req f) = 6000 /\ fi_result f = COk (AnRead pd) /\ o_props (pd_object pd) = p :: ps /\ pr_data p = VUint n.
Proof.
  intros dev fs n H. destruct (consumed_bind_ok _ _ _ _ _ _ H) as (fs1 & fs2 & pd & -> & C1 & C2). destruct (consumed_read _ _ _ _ C1) as (f & -> & Q & R).
  destruct (consumed_end _ _ _ _ C2) as [-> E]. destruct (o_props (pd_object pd)) as [|p ps] eqn:EP; [discriminate E|]. exists f, pd, p, ps. rewrite app_nil_r, Q.
  split; [reflexivity|]. split; [reflexivity|]. split; [exact R|]. split; [exact EP|]. destruct (pr_data p); try discriminate E. injection E as ->. reflexivity.
Qed.
Lemma consumed_chunks : forall fuel dev cs m fs m', consumed (read_chunks_script fuel dev cs m) fs (SEnd (COk m')) -> length fs = length cs /\ Forall a_multi fs.
Proof.
  intros fuel dev cs. induction cs as [|[a b] cs IH]; intros m fs m' H; cbn [read_chunks_script] in H.
  - destruct (consumed_end _ _ _ _ H) as [-> _]. auto.
  - destruct (consumed_bind_ok _ _ _ _ _ _ H) as (fs1 & fs2 & ids & -> & C1 & C2). destruct (IH _ _ _ C2) as [L F].
    destruct (consumed_bind_ok _ _ _ _ _ _ C1) as (f1 & f2 & os & -> & D1 & D2). destruct (consumed_multi _ _ _ _ _ D1) as (f & -> & Q). destruct (consumed_end _ _ _ _ D2) as [-> _].
    cbn [app length]. split; [lia|]. constructor; auto.
Qed.
Lemma om_set_length : forall k o m, (length m <= length (om_set k o m))%nat.
Proof. intros k o m. induction m as [|[k' o'] m IH]; cbn [om_set length]; [lia|]. destruct (oid_eqb k k'); cbn [length]; lia. Qed.
Lemma set_info_length : forall keys rs i m m', set_info keys i rs m = COk m' -> (length m <= length m')%nat.
Proof.
  intros keys rs. induction rs as [|r rs IH]; intros i m m' H; cbn [set_info] in H; [injection H as ->; lia|].
  destruct (o_props r) as [|p0 ps]; [discriminate H|]. destruct (pr_data p0); try discriminate H. destruct ps as [|p1 ps]; [discriminate H|]. destruct (pr_data p1); try discriminate H.
  destruct (nth_error keys i) as [k|]; [|discriminate H]. destruct (existsb _ m); [|discriminate H]. apply IH in H. 
  etransitivity; [apply om_set_length|exact H].
Qed.
Lemma consumed_all : forall fuel dev n objs m fs m', consumed (all_info_script n fuel dev objs m) fs (SEnd (COk m')) ->
  Forall a_multi fs /\ (length m <= length m')%nat /\ 5 * Z.of_nat (length fs) <= Z.of_nat (length objs) + 4.
Proof.
  intros fuel dev n. induction n as [|n IH]; intros objs m fs m' H; cbn [all_info_script] in H.
  - destruct (consumed_end _ _ _ _ H) as [-> E]. injection E as <-. cbn [length]. split; [constructor|]. split; [lia|lia].
  - destruct objs as [|o objs]; [destruct (consumed_end _ _ _ _ H) as [-> E]; injection E as <-; cbn [length]; split; [constructor|]; split; lia|].
    destruct (consumed_bind_ok _ _ _ _ _ _ H) as (fs1 & fs2 & m1 & -> & C1 & C2). destruct (IH _ _ _ _ C2) as (F & L & G).
    destruct (consumed_bind_ok _ _ _ _ _ _ C1) as (f1 & f2 & os & -> & D1 & D2). destruct (consumed_multi _ _ _ _ _ D1) as (f & -> & Q).
    destruct (consumed_end _ _ _ _ D2) as [-> E]. apply set_info_length in E. rewrite skipn_length in G. cbn [app length] in *.
    split; [constructor; assumption|]. split; [lia|]. destruct (Nat.le_gt_cases 5 (S (length objs))); [lia|].
    assert (length fs2 = 0%nat); [|lia]. 
    assert (SK : skipn 5 (o :: objs) = []) by (apply skipn_all2; cbn [length]; lia). rewrite SK in C2.
    destruct n; cbn [all_info_script] in C2; destruct (consumed_end _ _ _ _ C2) as [-> _]; reflexivity.
Qed.
Lemma multi_limits : forall fs, Forall a_multi fs -> limits fs = 20000 * Z.of_nat (length fs).
Proof.
  intros fs F. induction F as [|f fs (fu & d & rp & Q) F IH]; [reflexivity|]. unfold limits in *. cbn [fold_right length]. rewrite IH, Q. cbn [limit]. lia.
Qed.
Lemma limits_app : forall a b, limits (a ++ b) = limits a + limits b.
Proof. intros a b. unfold limits. induction a as [|f a IH]; cbn [app fold_right]; [lia|]. rewrite IH. lia. Qed.
Lemma chunk_count : forall size l cs, 0 < size -> 0 <= l -> chunks size l = ROk cs -> Z.of_nat (length cs) = (l + size - 1) / size.
Proof.
  intros size l cs S L H. unfold chunks in H. destruct (Z.eqb_spec size 0); [lia|]. injection H as <-. rewrite app_length, map_length.
  assert (ZS : forall k a, length (zseq a k) = k) by (intros k; induction k as [|k IH]; intros a; cbn; auto). rewrite ZS.
  pose proof (Z.div_mod l size ltac:(lia)) as DM. pose proof (Z.mod_pos_bound l size S) as MB. pose proof (Z.div_pos l size L S) as DP. rewrite Nat2Z.inj_add, Z2Nat.id by exact DP.
  set (q := l / size) in *. set (m := l mod size) in *. destruct (q * size + 1 <=? l) eqn:C; cbn [length].
  - apply (Z.div_unique_pos _ _ _ (m - 1)); lia.
  - apply (Z.div_unique_pos _ _ _ (m + size - 1)); lia.
Qed.
Lemma objects_requests : forall fuel order dev fs m', (forall m, length (order m) = length m) -> 20 <= dv_maxapdu dev ->
  consumed (Objects_script fuel order dev) fs (SEnd (COk m')) ->
  exists f fs' pd p ps n, fs = f :: fs' /\ fi_result f = COk (AnRead pd) /\ o_props (pd_object pd) = p :: ps /\ pr_data p = VUint n /\
    (0 <= n -> Z.of_nat (length fs') <= (n + dv_maxapdu dev / 20 - 1) / (dv_maxapdu dev / 20) + (Z.of_nat (length m') + 4) / 5 /\
      limits fs = 6000 + 20000 * Z.of_nat (length fs')).
Proof.
  intros fuel order dev fs m' OL MA H. unfold Objects_script in H. destruct (consumed_bind_ok _ _ _ _ _ _ H) as (fs1 & fs2 & m & -> & C1 & C2).
  destruct (consumed_bind_ok _ _ _ _ _ _ C1) as (fa & fb & n & -> & D1 & D2). destruct (consumed_len _ _ _ D1) as (f & pd & p & ps & -> & LM & R & EP & ED).
  unfold readPropRequestSize in D2. destruct (chunks (dv_maxapdu dev / 20) n) as [cs|] eqn:CH; [|destruct (consumed_end _ _ _ _ D2) as [_ E]; discriminate E].
  destruct (consumed_bind_ok _ _ _ _ _ _ D2) as (fc & fd & m1 & -> & G1 & G2). destruct (consumed_chunks _ _ _ _ _ _ G1) as [LC FC].
  destruct (consumed_end _ _ _ _ G2) as [-> E]. injection E as ->. destruct (consumed_all _ _ _ _ _ _ _ C2) as (FA & LE & LA). rewrite map_length, OL in LA.
  exists f, (fc ++ fs2), pd, p, ps, n. split; [rewrite app_nil_r; reflexivity|]. split; [exact R|]. split; [exact EP|]. split; [exact ED|]. intros P.
  assert (S : 0 < dv_maxapdu dev / 20) by (apply Z.div_str_pos; lia). pose proof (chunk_count _ _ _ S P CH) as CC. rewrite app_length, LC.
  assert (L5 : Z.of_nat (length fs2) <= (Z.of_nat (length m') + 4) / 5) by (apply Z.div_le_lower_bound; lia).
  split; [lia|]. rewrite app_nil_r. cbn [app]. change (f :: fc ++ fs2) with ([f] ++ fc ++ fs2). rewrite limits_app.
  assert (F2 : Forall a_multi (fc ++ fs2)) by (apply Forall_app; auto). rewrite (multi_limits _ F2), app_length, LC. unfold limits at 1. cbn [fold_right]. rewrite LM. lia.
Qed.

Lemma objects_time : forall bcast me l0 t0 i l t' fuel order dev m' fs, (forall m, length (order m) = length m) -> 20 <= dv_maxapdu dev ->
  trun bcast me t_init l0 = Some t0 -> z_free (t_z t0) i = true ->
  performs bcast me i t0 (Objects_script fuel order dev) l t' (SEnd (COk m')) fs -> prompt bcast me t0 l ->
  without_pause bcast me i t0 (Objects_script fuel order dev) l -> z_dead (t_z t') = false ->
  exists f fs' pd p ps n, fs = f :: fs' /\ fi_result f = COk (AnRead pd) /\ o_props (pd_object pd) = p :: ps /\ pr_data p = VUint n /\
    (0 <= n -> Z.of_nat (length fs') <= (n + dv_maxapdu dev / 20 - 1) / (dv_maxapdu dev / 20) + (Z.of_nat (length m') + 4) / 5 /\
      t_now t' - t_now t0 <= 6000 + 20000 * Z.of_nat (length fs')).
Proof.
  intros bcast me l0 t0 i l t' fuel order dev m' fs OL MA R0 FR P PR WP LV.
  assert (K : keeps i t0 (Objects_script fuel order dev)). { destruct (free_parts _ _ FR) as (N & _). exists NFree. split; [exact N|exact I]. }
  destruct (performs_follows _ _ _ _ _ _ _ _ _ _ P K) as (C & _). destruct (objects_requests _ _ _ _ _ OL MA C) as (f & fs' & pd & p & ps & n & E & R & EP & ED & B).
  exists f, fs', pd, p, ps, n. split; [exact E|]. split; [exact R|]. split; [exact EP|]. split; [exact ED|]. intros P0. destruct (B P0) as [B1 B2]. split; [exact B1|].
  rewrite <- B2. exact (script_returned_in_time _ _ _ _ _ _ _ _ _ _ _ R0 FR P PR WP LV).
Qed.

(** ** Runs given by their steps: [None] stands for the next request of the script *)
Definition plain (i : nat) (a : taction) : bool :=
  match a with TDo (ZRequest j _) | TDo (ZScan j _) | TDo (ZArrive j _ _) => negb (Nat.eqb j i) | _ => true end.
Definition may_pass (i : nat) (t : timed) (a : taction) : bool :=
  match a with
  | TPass _ => match nth_error (w_ph (z_w (t_z t))) i with Some x => match req_of x with Some _ => true | None => false end | None => false end
  | TDo _ => true
  end.
Definition next_of {A} (i : nat) (s : script A) (o : option taction) : option taction :=
  match o with
  | Some a => if plain i a then Some a else None
  | None => match s with SCall rq _ => Some (TDo (ZRequest i rq)) | SEnd _ => None end
  end.
Fixpoint drive {A} (bcast : address) (me : option address) (i : nat) (t : timed) (s : script A) (l : list (option taction))
  : option (list taction * (timed * (script A * list finished))) :=
  match l with
  | [] => Some ([], (t, (s, [])))
  | o :: r =>
    match next_of i s o with
    | None => None
    | Some a =>
      if may_pass i t a then
        match texec bcast me t a with
        | None => None
        | Some t1 =>
          if Nat.eqb (length (returned_of i t1)) (length (returned_of i t)) then
            match drive bcast me i t1 s r with Some (l', x) => Some (a :: l', x) | None => None end
          else if negb (Nat.eqb (length (returned_of i t1)) (S (length (returned_of i t)))) then None
          else match returned_of i t1, s with
               | f :: _, SCall _ k =>
                   match drive bcast me i t1 (k (fi_result f)) r with
                   | Some (l', (t', (s', fs))) => Some (a :: l', (t', (s', f :: fs)))
                   | None => None
                   end
               | _, _ => None
               end
        end
      else None
    end
  end.
Lemma next_by : forall A i (s : script A) o a, next_of i s o = Some a -> by_script i s a.
Proof.
  intros A i s [a0|] a H; cbn [next_of] in H.
  - destruct (plain i a0) eqn:P; [|discriminate]. injection H as <-. destruct a0 as [[]|]; cbn [by_script plain] in *; try exact I; apply negb_true_iff, Nat.eqb_neq in P; auto. intros E. contradiction.
  - destruct s as [|rq k]; [discriminate|]. injection H as <-. cbn. intros _. eauto.
Qed.
Lemma drive_performs : forall A bcast me i l t (s : script A) la t' s' fs, drive bcast me i t s l = Some (la, (t', (s', fs))) ->
  performs bcast me i t s la t' s' fs /\ without_pause bcast me i t s la.
Proof.
  intros A bcast me i l. induction l as [|o l IH]; intros t s la t' s' fs H; cbn [drive] in H.
  - injection H as <- <- <- <-. split; [cbn; auto|]. intros [|? ?] d lb ta sa fa H; discriminate H.
  - destruct (next_of i s o) as [a|] eqn:NX; [|discriminate]. pose proof (next_by _ _ _ _ _ NX) as BY. destruct (may_pass i t a) eqn:MP; [|discriminate].
    destruct (texec bcast me t a) as [t1|] eqn:E; [|discriminate]. destruct (returned_grows bcast me [a] t t1 i) as (d & R); [cbn [trun]; rewrite E; reflexivity|].
    assert (HEAD : forall d la0 ta sa fa, a :: la0 = [] ++ TPass d :: la0 -> performs bcast me i t s [] ta sa fa -> in_request i ta).
    { intros d0 la0 ta sa fa Q (-> & _). cbn in Q. injection Q as ->. cbn [may_pass] in MP. destruct (nth_error (w_ph (z_w (t_z t))) i) as [x|] eqn:N; [|discriminate].
      destruct (req_of x) as [rq|] eqn:RX; [|discriminate]. exists x, rq. auto. }
    destruct (Nat.eqb_spec (length (returned_of i t1)) (length (returned_of i t))) as [EL|NL].
    + destruct (drive bcast me i t1 s l) as [[l' [t2 [s2 f2]]]|] eqn:DR; [|discriminate]. injection H as <- -> -> ->. destruct (IH _ _ _ _ _ _ DR) as [P W].
      assert (R' : returned_of i t1 = returned_of i t). { rewrite R, app_length in EL. destruct d; [exact R|cbn in EL; lia]. }
      split; [cbn [performs]; split; [exact BY|]; exists t1; auto|]. intros [|a' la] d0 lb ta sa fa Q P2.
      * cbn in Q. injection Q as -> ->. exact (HEAD d0 lb ta sa fa eq_refl P2).
      * cbn [app] in Q. injection Q as <- ->. cbn [performs] in P2. destruct P2 as (_ & t1' & E' & B). rewrite E in E'. injection E' as <-.
        destruct B as [(_ & B)|(f & rq & k & fs' & R2 & _)]; [exact (W la d0 lb ta sa fa eq_refl B)|exfalso; rewrite R' in R2; exact (one_longer _ _ _ (eq_sym R2))].
    + destruct (negb _) eqn:NB; [discriminate|]. apply negb_false_iff, Nat.eqb_eq in NB. destruct (returned_of i t1) as [|f rr] eqn:RT; [discriminate|]. destruct s as [|rq k]; [discriminate|].
      destruct (drive bcast me i t1 (k (fi_result f)) l) as [[l' [t2 [s2 f2]]]|] eqn:DR; [|discriminate]. injection H as <- -> -> <-. destruct (IH _ _ _ _ _ _ DR) as [P W].
      assert (R' : rr = returned_of i t). { destruct d as [|f0 d]; [exfalso; apply NL; rewrite R; reflexivity|]. cbn [app] in R. injection R as <- ->. cbn [length] in NB. rewrite app_length in NB. destruct d; [reflexivity|cbn [length] in NB; lia]. }
      subst rr. split; [cbn [performs]; split; [exact BY|]; exists t1; split; [exact E|]; right; exists f, rq, k, f2; auto|]. intros [|a' la] d0 lb ta sa fa Q P2.
      * cbn in Q. injection Q as -> ->. exact (HEAD d0 lb ta sa fa eq_refl P2).
      * cbn [app] in Q. injection Q as <- ->. cbn [performs] in P2. destruct P2 as (_ & t1' & E' & B). rewrite E in E'. injection E' as <-.
        destruct B as [(R2 & _)|(f' & rq' & k' & fs' & R2 & S & -> & B)]; [exfalso; rewrite RT in R2; exact (one_longer _ _ _ R2)|].
        rewrite RT in R2. injection R2 as <-. injection S as <- <-. exact (W la d0 lb ta sa fs' eq_refl B).
Qed.
(** a run of the client before, then the goroutine's *)
Definition driven {A} (bcast : address) (me : option address) (i : nat) (l0 : list taction) (s : script A) (l : list (option taction))
  (chk : list taction -> timed -> timed -> script A -> list finished -> bool) : bool :=
  match trun bcast me t_init l0 with
  | None => false
  | Some t0 => z_free (t_z t0) i && match drive bcast me i t0 s l with
      | None => false
      | Some (la, (t', (s', fs))) => promptly bcast me t0 la && negb (z_dead (t_z t')) && chk la t0 t' s' fs
      end
  end.
Lemma driven_shown : forall A bcast me i l0 (s : script A) l chk, driven bcast me i l0 s l chk = true ->
  exists la t0 t' s' fs, trun bcast me t_init l0 = Some t0 /\ z_free (t_z t0) i = true /\ performs bcast me i t0 s la t' s' fs /\ prompt bcast me t0 la /\
    without_pause bcast me i t0 s la /\ z_dead (t_z t') = false /\ chk la t0 t' s' fs = true.
Proof.
  intros A bcast me i l0 s l chk H. unfold driven in H. destruct (trun bcast me t_init l0) as [t0|]; [|discriminate]. apply andb_prop in H. destruct H as [H1 H].
  destruct (drive bcast me i t0 s l) as [[la [t' [s' fs]]]|] eqn:D; [|discriminate]. apply andb_prop in H. destruct H as [H H3]. apply andb_prop in H. destruct H as [H2 H4].
  apply negb_true_iff in H4. destruct (drive_performs _ _ _ _ _ _ _ _ _ _ _ D) as [P W]. exists la, t0, t', s', fs. split; [reflexivity|]. split; [exact H1|]. split; [exact P|].
  split; [apply promptly_prompt; exact H2|]. auto.
Qed.

(** ** Every run of the client without a clock is one with a clock *)
Lemma fire_by : forall t a, exists d, 0 < d /\ may_fire (later t d) a = true.
Proof.
  intros t a. assert (G : forall i, exists d, 0 < d /\ t_due t i <= t_now t + d) by (intros i; exists (Z.max 1 (t_due t i - t_now t)); lia).
  destruct a as [| | | | |[| | | | |[]]|[| | | | | | |[]]]; try (exists 1; split; [lia|reflexivity]);
    match goal with |- context [ModelTsm.ATimeout ?j] => destruct (G j) as (d & D1 & D2) | |- context [ModelUtsm.VTimeout ?j] => destruct (G j) as (d & D1 & D2) end;
    exists d; (split; [exact D1|]); cbn; lia.
Qed.
Lemma clocked : forall bcast me l t z', zrun bcast me (t_z t) l = Some z' -> exists lt t', trun bcast me t lt = Some t' /\ steps lt = l /\ t_z t' = z'.
Proof.
  intros bcast me l. induction l as [|a l IH]; intros t z' H; cbn [zrun] in H; [injection H as <-; exists [], t; auto|].
  destruct (zexec bcast me (t_z t) a) as [z|] eqn:E; [|discriminate]. destruct (fire_by t a) as (d & D & F).
  destruct (IH (set_z (clocks (later t d) a) z) z' H) as (lt & t' & R & S & Z). exists (TPass d :: TDo a :: lt), t'. split; [|split; [cbn; unfold steps in S; rewrite S; reflexivity|exact Z]].
  cbn [trun texec]. replace (0 <? d) with true by (symmetry; apply Z.ltb_lt; exact D). fold (later t d). rewrite F. cbn [later t_z]. rewrite E. exact R.
Qed.
