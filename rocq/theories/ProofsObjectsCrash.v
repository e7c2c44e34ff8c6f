(** * C48: which answers crash Objects *)
Require Import List ZArith Bool Lia Permutation.
From Verif Require Import ModelClient SpecObjectsCrash ProofsCrash.
Import ListNotations.
Open Scope Z_scope.

Definition types_in (m : list (object_id * object)) (k : object_id) : Prop := exists e, In e m /\ oid_type (fst e) = oid_type k.
Lemma types_has : forall m k, has_type m k <-> types_in m k.
Proof.
  intros m k. unfold has_type, types_in. rewrite existsb_exists. split; intros (e & H1 & H2); exists e; (split; [exact H1|]); lia.
Qed.
Lemma om_set_same_types : forall m k o k', has_type m k -> (has_type (om_set k o m) k' <-> has_type m k').
Proof.
  intros m k o k' H. split; [|apply om_set_types]. rewrite !types_has in *. intros (e & I & T).
  assert (G : forall m', In e (om_set k o m') -> In e m' \/ (fst e = k) \/ exists o', In (fst e, o') m').
  { clear. induction m' as [|[k0 o0] m' IH]; cbn [om_set]; intros H; [destruct H as [<-|[]]; right; left; reflexivity|].
    destruct (oid_eqb k k0); destruct H as [<-|H].
    - right; right. exists o0. left. reflexivity.
    - left. right. exact H.
    - left. left. reflexivity.
    - destruct (IH H) as [G|[G|(o' & G)]]; [left; right; exact G|right; left; exact G|right; right; exists o'; right; exact G]. }
  destruct (G m I) as [J|[J|(o' & J)]]; [exists e; split; assumption| |exists (fst e, o'); split; [exact J|exact T]].
  destruct H as (e' & I' & T'). exists e'. split; [exact I'|]. rewrite T', <- J. exact T.
Qed.

(** exactly the answers [rs] that crash, when the keys from [i] on are [keys] *)
Lemma set_info_crash : forall rs keys i m,
  set_info keys i rs m = CPanic <->
  exists before r after, rs = before ++ r :: after /\ Forall named before /\
    ((exists j k, (j < length before)%nat /\ nth_error keys (i + j) = Some k /\ ~ has_type m k) \/
     (exists j, (j < length before)%nat /\ nth_error keys (i + j) = None) \/
     cut_short r \/ (named r /\ match nth_error keys (i + length before) with None => True | Some k => ~ has_type m k end)).
Proof.
  induction rs as [|r rs IH]; intros keys i m.
  { cbn [set_info]. split; [discriminate|]. intros (b & x & a & E & _). destruct b; discriminate E. }
  cbn [set_info].
  assert (HERE : forall b x a, r :: rs = b ++ x :: a -> Forall named b -> (b = [] /\ x = r /\ a = rs) \/ (exists b', b = r :: b' /\ named r /\ rs = b' ++ x :: a /\ Forall named b')).
  { intros b x a E F. destruct b as [|y b]; [left; injection E as -> ->; auto|right; injection E as -> ->; inversion F; subst; exists b; auto]. }
  destruct (o_props r) as [|p0 ps] eqn:Ep.
  { split; [intros _|intros _; reflexivity]. exists [], r, rs. repeat split; [constructor|]. right; right; left. left. exact Ep. }
  assert (NS : (forall n, pr_data p0 <> VString n) -> ~ named r /\ ~ cut_short r).
  { intros N. split; [intros (p & q & ps' & n & d & E & E1 & _)|intros [E|(p & n & E & E1)]]; rewrite Ep in E; try discriminate E; injection E as -> ->; exact (N _ E1). }
  assert (NO : (~ named r) -> (~ cut_short r) -> @CErr (list (object_id * object)) CWrongType = CPanic <-> exists before r0 after, r :: rs = before ++ r0 :: after /\ Forall named before /\
    ((exists j k, (j < length before)%nat /\ nth_error keys (i + j) = Some k /\ ~ has_type m k) \/
     (exists j, (j < length before)%nat /\ nth_error keys (i + j) = None) \/
     cut_short r0 \/ (named r0 /\ match nth_error keys (i + length before) with None => True | Some k => ~ has_type m k end))).
  { intros N1 N2. split; [discriminate|]. intros (b & x & a & E & F & C). destruct (HERE _ _ _ E F) as [(-> & -> & ->)|(b' & -> & N & _)]; [|contradiction].
    destruct C as [(j & k & J & _)|[(j & J & _)|[C|[C _]]]]; [cbn in J; lia|cbn in J; lia|contradiction|contradiction]. }
  destruct (pr_data p0) eqn:D0; try (destruct NS as [N1 N2]; [intros; discriminate|]; apply NO; assumption).
  match type of D0 with _ = VString ?x => rename x into s end.
  destruct ps as [|p1 ps].
  { split; [intros _|intros _; reflexivity]. exists [], r, rs. repeat split; [constructor|]. right; right; left. right. exists p0, s. split; assumption. }
  assert (NS1 : (forall n, pr_data p1 <> VString n) -> ~ named r /\ ~ cut_short r).
  { intros N. split; [intros (p & q & ps' & n & d & E & E1 & E2)|intros [E|(p & n & E & E1)]]; rewrite Ep in E; try discriminate E; injection E as -> -> ->; exact (N _ E2). }
  destruct (pr_data p1) eqn:D1; try (destruct NS1 as [N1 N2]; [intros; discriminate|]; apply NO; assumption).
  match type of D1 with _ = VString ?x => rename x into s0 end.
  assert (NM : named r) by (exists p0, p1, ps, s, s0; auto). assert (NC : ~ cut_short r) by (intros [E|(p & n & E & _)]; rewrite Ep in E; discriminate E).
  destruct (nth_error keys i) as [k|] eqn:K.
  2:{ split; [intros _|intros _; reflexivity]. exists [], r, rs. repeat split; [constructor|]. right; right; right. split; [exact NM|]. cbn [length]. rewrite Nat.add_0_r, K. exact I. }
  destruct (existsb (fun e => oid_type (fst e) =? oid_type k) m) eqn:T.
  2:{ split; [intros _|intros _; reflexivity]. exists [], r, rs. repeat split; [constructor|]. right; right; right. split; [exact NM|]. cbn [length]. rewrite Nat.add_0_r, K. unfold has_type. rewrite T. discriminate. }
  rewrite IH. clear IH NO NS NS1. set (m1 := om_set _ _ m).
  assert (TT : forall k', has_type m1 k' <-> has_type m k') by (intros; apply om_set_same_types; exact T).
  split.
  - intros (b & x & a & E & F & C). exists (r :: b), x, a. split; [cbn; rewrite E; reflexivity|]. split; [constructor; assumption|].
    destruct C as [(j & k' & J & N & H)|[(j & J & N)|[C|[C N]]]].
    + left. exists (S j), k'. rewrite <- TT. split; [cbn; lia|]. split; [|exact H]. replace (i + S j)%nat with (S i + j)%nat by lia. exact N.
    + right; left. exists (S j). split; [cbn; lia|]. replace (i + S j)%nat with (S i + j)%nat by lia. exact N.
    + right; right; left. exact C.
    + right; right; right. split; [exact C|]. cbn [length]. replace (i + S (length b))%nat with (S i + length b)%nat by lia. destruct (nth_error keys (S i + length b)); [rewrite <- TT|]; exact N.
  - intros (b & x & a & E & F & C). destruct (HERE _ _ _ E F) as [(-> & -> & ->)|(b' & -> & _ & E' & F')].
    { exfalso. destruct C as [(j & k' & J & _)|[(j & J & _)|[C|[_ C]]]]; [cbn in J; lia|cbn in J; lia|contradiction|]. cbn [length] in C. rewrite Nat.add_0_r, K in C. exact (C T). }
    exists b', x, a. split; [exact E'|]. split; [exact F'|]. destruct C as [(j & k' & J & N & H)|[(j & J & N)|[C|[C N]]]].
    + left. destruct j as [|j]; [rewrite Nat.add_0_r, K in N; injection N as <-; contradiction (H T)|]. exists j, k'. rewrite TT. split; [cbn in J; lia|]. split; [|exact H].
      replace (S i + j)%nat with (i + S j)%nat by lia. exact N.
    + right; left. destruct j as [|j]; [rewrite Nat.add_0_r, K in N; discriminate N|]. exists j. split; [cbn in J; lia|]. replace (S i + j)%nat with (i + S j)%nat by lia. exact N.
    + right; right; left. exact C.
    + right; right; right. split; [exact C|]. cbn [length] in N. replace (i + S (length b'))%nat with (S i + length b')%nat in N by lia. destruct (nth_error keys (S i + length b')); [rewrite TT|]; exact N.
Qed.

Lemma filter_le : forall A (f : A -> bool) l, (length (filter f l) <= length l)%nat.
Proof. intros A f l. induction l as [|x l IH]; cbn; [lia|]. destruct (f x); cbn; lia. Qed.
Lemma nth_repeat_some : forall A (x y : A) n i, nth_error (repeat x n) i = Some y -> y = x.
Proof. intros A x y n i H. apply nth_error_In in H. exact (repeat_spec _ _ _ H). Qed.

Definition padded (objs : list object) : list object_id := info_keys objs ++ repeat (mkOid 0 0) (length objs - length (info_keys objs)).
Lemma padded_length : forall objs, length (padded objs) = length objs.
Proof. intros objs. unfold padded. rewrite app_length, repeat_length. unfold info_keys. rewrite map_length. pose proof (filter_le _ (fun o => oid_type (o_id o) <=? maxStandardBacnetType) objs). lia. Qed.
Lemma padded_lacks : forall objs m i k, (forall o, In o objs -> has_type m (o_id o)) -> nth_error (padded objs) i = Some k -> ~ has_type m k ->
  (length (info_keys objs) <= i)%nat /\ ~ has_type m (mkOid 0 0).
Proof.
  intros objs m i k H N L. unfold padded in N. destruct (Nat.lt_ge_cases i (length (info_keys objs))) as [LT|GE].
  { rewrite nth_error_app1 in N by exact LT. apply nth_error_In in N. unfold info_keys in N. apply in_map_iff in N. destruct N as (o & <- & I). apply filter_In in I. exfalso. apply L, H, I. }
  rewrite nth_error_app2 in N by exact GE. apply nth_repeat_some in N. subst k. split; assumption.
Qed.

(** the exact condition for a group of objects, once its answer has been read *)
Lemma information_crash : forall fuel e me dev objs m tr rs, (forall o, In o objs -> types_in m (o_id o)) ->
  ReadMultiProperty fuel e me dev (info_request (info_keys objs)) = (tr, COk rs) ->
  (snd (objectInformation fuel e me dev objs m) = CPanic <->
   falls_short (if existsb (fun x => oid_type (fst x) =? 0) m then length objs else length (info_keys objs)) rs).
Proof.
  intros fuel e me dev objs m tr rs H R. unfold objectInformation. rewrite R. cbn [cbind snd].
  change (info_keys objs ++ repeat (mkOid 0 0) (length objs - length (info_keys objs))) with (padded objs).
  rewrite set_info_crash. unfold falls_short.
  assert (H' : forall o, In o objs -> has_type m (o_id o)) by (intros o I; apply types_has; auto).
  assert (LE : (length (info_keys objs) <= length objs)%nat) by (unfold info_keys; rewrite map_length; apply filter_le).
  pose proof (padded_length objs) as PL.
  assert (TZ : existsb (fun x => oid_type (fst x) =? 0) m = true <-> has_type m (mkOid 0 0)) by (unfold has_type; cbn [oid_type]; reflexivity).
  assert (DIE : forall i, match nth_error (padded objs) i with None => True | Some k => ~ has_type m k end <->
                ((if existsb (fun x => (oid_type (fst x) =? 0)%Z) m then length objs else length (info_keys objs)) <= i)%nat).
  { intros i. destruct (nth_error (padded objs) i) as [k|] eqn:N.
    - assert (i < length objs)%nat by (rewrite <- PL; apply nth_error_Some; congruence). split.
      + intros L. destruct (padded_lacks objs m i k H' N L) as [G Z]. destruct (existsb _ m); [contradiction Z; apply TZ; reflexivity|exact G].
      + intros G T. destruct (existsb (fun x => oid_type (fst x) =? 0) m) eqn:EX; [lia|]. unfold padded in N. rewrite nth_error_app2 in N by exact G. apply nth_repeat_some in N. subst k.
        apply TZ in T. discriminate T.
    - apply nth_error_None in N. rewrite PL in N. split; [intros _|intros _; exact I]. destruct (existsb _ m); lia. }
  split.
  - intros (b & r & a & E & F & C).
    assert (EARLY : forall j, (j < length b)%nat -> match nth_error (padded objs) (0 + j) with None => True | Some k => ~ has_type m k end ->
      exists before r0 after, rs = before ++ r0 :: after /\ Forall named before /\ (cut_short r0 \/ named r0 /\ ((if existsb (fun x => (oid_type (fst x) =? 0)%Z) m then length objs else length (info_keys objs)) <= length before)%nat)).
    { intros j J D. destruct (nth_error b j) as [x|] eqn:N; [|apply nth_error_None in N; lia]. destruct (nth_error_split _ _ N) as (b1 & b2 & -> & L).
      exists b1, x, (b2 ++ r :: a). rewrite E, <- app_assoc. split; [reflexivity|]. apply Forall_app in F. destruct F as [F1 F2]. inversion F2; subst. split; [exact F1|]. right. split; [assumption|]. apply DIE. exact D. }
    destruct C as [(j & k & J & N & D)|[(j & J & N)|[C|[C D]]]].
    + apply (EARLY j J). rewrite N. exact D.
    + apply (EARLY j J). rewrite N. exact I.
    + exists b, r, a. auto.
    + exists b, r, a. split; [exact E|]. split; [exact F|]. right. split; [exact C|]. apply DIE. exact D.
  - intros (b & r & a & E & F & C). exists b, r, a. split; [exact E|]. split; [exact F|]. right; right. destruct C as [C|[C D]]; [left; exact C|right]. split; [exact C|]. apply DIE. exact D.
Qed.

(** * All causes *)
Lemma cbind_panic : forall A B (c : call A) (k : A -> call B), snd (cbind c k) = CPanic -> snd c = CPanic \/ exists tr a, c = (tr, COk a) /\ snd (k a) = CPanic.
Proof.
  intros A B [tr r] k H. unfold cbind in H. destruct r as [a|e| |]; cbn [snd] in *; try discriminate H; [|left; reflexivity].
  right. exists tr, a. split; [reflexivity|]. destruct (k a) as [tr' r']. cbn [snd] in *. exact H.
Qed.
Lemma set_info_types : forall rs keys i m m' k, set_info keys i rs m = COk m' -> has_type m k -> has_type m' k.
Proof.
  induction rs as [|r rs IH]; intros keys i m m' k H T; cbn [set_info] in H; [injection H as <-; exact T|].
  destruct (o_props r) as [|p0 ps]; [discriminate H|]. destruct (pr_data p0); try discriminate H. destruct ps as [|p1 ps]; [discriminate H|]. destruct (pr_data p1); try discriminate H.
  destruct (nth_error keys i) as [k0|]; [|discriminate H]. destruct (existsb _ m); [|discriminate H]. apply (IH _ _ _ _ _ H). apply om_set_types. exact T.
Qed.
Definition multi_crash (fuel : nat) (envs : nat -> env) (me : option address) (dev : device) : Prop :=
  exists k mp, snd (ReadMultiProperty fuel (envs k) me dev mp) = CPanic.
Definition short_answer (fuel : nat) (envs : nat -> env) (me : option address) (dev : device) : Prop :=
  exists k ids rs, (length ids <= 5)%nat /\ snd (ReadMultiProperty fuel (envs k) me dev (info_request ids)) = COk rs /\ falls_short (length ids) rs.
Lemma falls_more : forall a b rs, (a <= b)%nat -> falls_short b rs -> falls_short a rs.
Proof. intros a b rs L (x & r & y & E & F & C). exists x, r, y. split; [exact E|]. split; [exact F|]. destruct C as [C|[C D]]; [left; exact C|right]. split; [exact C|lia]. Qed.

Lemma chunks_crash : forall fuel envs me dev cs k m, snd (read_chunks fuel k envs me dev cs m) = CPanic -> multi_crash fuel envs me dev.
Proof.
  intros fuel envs me dev cs. induction cs as [|[a b] cs IH]; intros k m H; cbn [read_chunks] in H; [discriminate H|].
  apply cbind_panic in H. destruct H as [H|(tr & ids & _ & H)]; [|exact (IH _ _ H)].
  unfold objectsRange in H. apply cbind_panic in H. destruct H as [H|(tr & os & _ & H)]; [eexists; eexists; exact H|].
  destruct os as [|o os]; [discriminate H|]. destruct (ids_of (o_props o)); discriminate H.
Qed.
Lemma info_crash : forall fuel envs me dev n k objs m, (forall o, In o objs -> has_type m (o_id o)) ->
  snd (all_info n fuel k envs me dev objs m) = CPanic -> multi_crash fuel envs me dev \/ short_answer fuel envs me dev.
Proof.
  intros fuel envs me dev n. induction n as [|n IH]; intros k objs m T H; cbn [all_info] in H; [discriminate H|].
  destruct objs as [|o0 os]; [discriminate H|]. set (objs := o0 :: os) in *. 
  assert (IN : forall o, In o (firstn 5 objs) -> In o objs) by (intros o I; rewrite <- (firstn_skipn 5 objs); apply in_or_app; left; exact I).
  apply cbind_panic in H. destruct H as [H|(tr & m' & E & H)].
  - destruct (ReadMultiProperty fuel (envs k) me dev (info_request (info_keys (firstn 5 objs)))) as [tr r] eqn:R.
    destruct r as [rs|e| |].
    + right. exists k, (info_keys (firstn 5 objs)), rs. rewrite R. pose proof (filter_le _ (fun o => oid_type (o_id o) <=? maxStandardBacnetType) (firstn 5 objs)) as LE.
      split; [unfold info_keys; rewrite map_length; pose proof (firstn_le_length 5 objs); lia|]. split; [reflexivity|].
      apply (information_crash fuel (envs k) me dev _ m tr rs) in H; [|intros o I; apply types_has, T, IN, I|exact R].
      eapply falls_more; [|exact H]. unfold info_keys. rewrite map_length. destruct (existsb _ m); lia.
    + unfold objectInformation in H. rewrite R in H. discriminate H.
    + left. exists k. eexists. rewrite R. reflexivity.
    + unfold objectInformation in H. rewrite R in H. discriminate H.
  - apply IH in H; [exact H|]. intros o I. unfold objectInformation in E. destruct (ReadMultiProperty fuel (envs k) me dev _) as [tr1 r1]. destruct r1 as [rs|e| |]; cbn [cbind] in E; try discriminate E.
    injection E as _ E. apply (set_info_types _ _ _ _ _ _ E). apply T. rewrite <- (firstn_skipn 5 objs). apply in_or_app. right. exact I.
Qed.
Lemma copy_types : forall ids m, (forall e, In e m -> o_id (snd e) = fst e) -> forall e, In e (objectCopy m ids) -> o_id (snd e) = fst e.
Proof.
  intros ids. induction ids as [|id ids IH]; intros m H e I; cbn in I; [exact (H e I)|]. unfold objectCopy in IH. apply (IH _) in I; [exact I|]. clear - H. intros x I.
  induction m as [|[k o] m IHm]; cbn [om_set] in I; [destruct I as [<-|[]]; reflexivity|]. unfold oid_eqb in I.
  destruct ((oid_type id =? oid_type k) && (oid_inst id =? oid_inst k)) eqn:Q.
  - destruct I as [<-|I]; [|apply H; right; exact I]. cbn. apply andb_prop in Q. destruct id, k. cbn in Q. destruct Q as [Q1 Q2]. apply Z.eqb_eq in Q1, Q2. subst. reflexivity.
  - destruct I as [<-|I]; [apply H; left; reflexivity|]. apply IHm; [intros y J; apply H; right; exact J|exact I].
Qed.
Lemma chunks_ids : forall fuel envs me dev cs k m tr m', (forall e, In e m -> o_id (snd e) = fst e) -> read_chunks fuel k envs me dev cs m = (tr, COk m') ->
  forall e, In e m' -> o_id (snd e) = fst e.
Proof.
  intros fuel envs me dev cs. induction cs as [|[a b] cs IH]; intros k m tr m' H R; cbn [read_chunks] in R; [injection R as _ <-; exact H|].
  destruct (objectsRange fuel (envs k) me dev a b) as [tr1 r1]. destruct r1 as [ids|e| |]; cbn [cbind] in R; try discriminate R.
  destruct (read_chunks fuel (S k) envs me dev cs (objectCopy m ids)) as [tr2 r2] eqn:R2. injection R as _ ->. apply (IH _ _ _ _ (copy_types ids m H) R2).
Qed.

Lemma objects_crash_causes : forall fuel order envs me dev, (forall m, Permutation (order m) m) -> 0 <= dv_maxapdu dev ->
  snd (Objects fuel order envs me dev) = CPanic ->
  dv_maxapdu dev < 20 \/ snd (ReadProperty (envs 0%nat) me dev (mkPD (mkObj [] [] (dv_id dev) [mkProp 76 0 VNil 0]))) = CPanic \/
  multi_crash fuel envs me dev \/ short_answer fuel envs me dev.
Proof.
  intros fuel order envs me dev PM A H. unfold Objects in H. apply cbind_panic in H. destruct H as [H|(tr & [k m] & E & H)].
  - unfold objectList in H. apply cbind_panic in H. destruct H as [H|(tr & n & _ & H)].
    + right; left. unfold objectListLen in H. apply cbind_panic in H. destruct H as [H|(tr & out & _ & H)]; [exact H|].
      destruct (o_props (pd_object out)) as [|p ps]; [discriminate H|]. destruct (pr_data p); discriminate H.
    + unfold chunks in H. destruct (Z.eqb_spec (dv_maxapdu dev / readPropRequestSize) 0) as [Z0|_].
      * left. unfold readPropRequestSize in Z0. apply Z.div_small_iff in Z0; lia.
      * apply cbind_panic in H. destruct H as [H|(tr' & m & _ & H)]; [|discriminate H]. right; right; left. exact (chunks_crash _ _ _ _ _ _ _ H).
  - right; right. assert (W : forall e, In e m -> o_id (snd e) = fst e).
    { unfold objectList in E. destruct (objectListLen (envs 0%nat) me dev) as [tr1 r1]. destruct r1 as [n|e| |]; cbn [cbind] in E; try discriminate E.
      destruct (chunks _ n) as [cs|]; [|discriminate E]. destruct (read_chunks fuel 1 envs me dev cs []) as [tr2 r2] eqn:R. destruct r2 as [m2|e| |]; cbn [cbind] in E; try discriminate E.
      injection E as _ _ <-. apply (chunks_ids _ _ _ _ _ _ _ _ _ (fun e (F : In e []) => match F with end) R). }
    apply (info_crash _ _ _ _ _ _ _ m) in H; [exact H|]. intros o I. apply in_map_iff in I. destruct I as (e & <- & I). apply (Permutation_in _ (PM m)) in I.
    apply types_has. exists e. split; [exact I|]. rewrite (W e I). reflexivity.
Qed.
Lemma names_crash : forall fuel e me dev objs m tr rs, (forall o, In o objs -> In (o_id o) (map fst m)) ->
  let ids := map o_id (filter (fun o => oid_type (o_id o) <=? 128) objs) in
  ReadMultiProperty fuel e me dev (info_request ids) = (tr, COk rs) ->
  (snd (objectInformation fuel e me dev objs m) = CPanic <->
   falls_short (if existsb (fun id => oid_type id =? 0) (map fst m) then length objs else length ids) rs).
Proof.
  intros fuel e me dev objs m tr rs H ids R.
  rewrite (information_crash fuel e me dev objs m tr rs); [|intros o I; specialize (H o I); apply in_map_iff in H; destruct H as (x & E & J); exists x; split; [exact J|rewrite E; reflexivity]|exact R].
  replace (existsb (fun id => oid_type id =? 0) (map fst m)) with (existsb (fun x : object_id * object => oid_type (fst x) =? 0) m); [reflexivity|].
  clear. induction m as [|x m IH]; [reflexivity|]. cbn. rewrite IH. reflexivity.
Qed.
