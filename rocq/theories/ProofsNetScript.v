(** Proofs about the scans of package network on a shared client: C143, C144. *)
Require Import List ZArith Bool Lia.
From Verif Require Import ModelClient ModelNet ModelSystem ModelScan ModelWhole ModelTime ModelScript ModelNetScript SpecSystem SpecWhole SpecFair SpecTime SpecScript SpecNetScript.
From Verif Require Import ModelTsm.
From Verif Require Import ProofsTsm ProofsSystem ProofsWhole ProofsFair ProofsFairWhole ProofsTime ProofsTimeCheck ProofsScript.
Import ListNotations.
Open Scope Z_scope.

(** ** A script played alone is the function *)
Definition pthen {A B} (x : nat * call A) (f : nat -> outcome A -> nat * call B) : nat * call B :=
  let '(k, (tr, r)) := x in let '(k', (tr', r')) := f k r in (k', (tr ++ tr', r')).
Lemma plays_then : forall A B envs me (s : script A) (f : outcome A -> script B) k,
  plays envs me k (sthen s f) = pthen (plays envs me k s) (fun k r => plays envs me k (f r)).
Proof.
  intros A B envs me s f. induction s as [r|rq c IH]; intros k.
  - cbn [sthen plays pthen]. destruct (plays envs me k (f r)) as (k' & tr & r'). reflexivity.
  - cbn [sthen plays]. destruct (alone (envs k) me rq) as [tr r]. rewrite IH. destruct (plays envs me (S k) (c r)) as (k' & tr' & r'). cbn [pthen].
    destruct (plays envs me k' (f r')) as (k2 & tr2 & r2). rewrite app_assoc. reflexivity.
Qed.
(** [x] is the call [c], made with [n] requests if it succeeds and at most as many else *)
Definition is_call {A} (x : nat * call A) (k : nat) (c : call A) (n : A -> nat) (m : nat) : Prop :=
  snd x = c /\ (k <= fst x <= k + m)%nat /\ (forall a, snd c = COk a -> fst x = (k + n a)%nat).
Lemma is_bind : forall A B envs me k (s : script A) (f : A -> script B) c c' n m (n' : A -> B -> nat) m' ,
  is_call (plays envs me k s) k c n m -> (forall a, snd c = COk a -> (n a <= m)%nat -> is_call (plays envs me (k + n a)%nat (f a)) (k + n a)%nat (c' a) (n' a) m') ->
  (exists x, plays envs me k (nsbind s f) = x /\ snd x = nbind c c' /\ (k <= fst x <= k + (m + m'))%nat /\
     (forall b, snd (nbind c c') = COk b -> exists a, snd c = COk a /\ snd (c' a) = COk b /\ fst x = (k + (n a + n' a b))%nat)).
Proof.
  intros A B envs me k s f c c' n m n' m' (E & K & N) F. eexists. split; [reflexivity|]. unfold nsbind. rewrite plays_then.
  destruct (plays envs me k s) as (k1 & tr & r). cbn [fst snd] in *. subst c. cbn [pthen nbind snd] in *.
  destruct r as [a|e| |]; cbn [plays]; try (cbn [fst snd]; rewrite app_nil_r; split; [reflexivity|]; split; [lia|intros b H; discriminate H]).
  pose proof (N a eq_refl) as ->. destruct (F a eq_refl) as (E' & K' & N'); [lia|]. destruct (plays envs me (k + n a)%nat (f a)) as (k2 & tr2 & r2). cbn [fst snd] in *. rewrite <- E'. cbn [fst snd].
  split; [reflexivity|]. split; [lia|]. intros b ->. exists a. rewrite <- E' in *. cbn [snd]. split; [reflexivity|]. split; [reflexivity|]. rewrite (N' b eq_refl). lia.
Qed.
Lemma is_read : forall envs me k dev rp, is_call (plays envs me k (signoring (read_script dev rp))) k (ignoring (ReadProperty (envs k) me dev rp)) (fun _ => 1%nat) 1.
Proof.
  intros envs me k dev rp. unfold signoring. rewrite plays_then, plays_read. unfold is_call, ignoring. cbn [pthen plays]. destruct (ReadProperty (envs k) me dev rp) as [tr r]. cbn [plays fst snd]. rewrite app_nil_r.
  split; [destruct r; reflexivity|]. split; [lia|]. intros; lia.
Qed.
Lemma is_nread : forall envs me k d o, is_call (plays envs me k (signoring (nread_script d o))) k (ignoring (Read (envs k) me d (Some o))) (fun _ => 1%nat) 1.
Proof. intros. apply is_read. Qed.
Lemma is_ret : forall A envs me k (a : A), is_call (plays envs me k (SEnd (COk a))) k (nret a) (fun _ => 0%nat) 0.
Proof. intros. split; [reflexivity|]. cbn. split; [lia|]. intros; lia. Qed.
(** two steps of a function, both with a fixed number of requests *)
Lemma is_seq : forall A B envs me k (s : script A) (f : A -> script B) c c' n n',
  is_call (plays envs me k s) k c (fun _ => n) n -> (forall a, snd c = COk a -> is_call (plays envs me (k + n)%nat (f a)) (k + n)%nat (c' a) (fun _ => n') n') ->
  is_call (plays envs me k (nsbind s f)) k (nbind c c') (fun _ => (n + n')%nat) (n + n').
Proof.
  intros A B envs me k s f c c' n n' H F. destruct (is_bind A B envs me k s f c c' (fun _ => n) n (fun _ _ => n') n' H) as (x & E & V & K & N); [intros a Ha _; exact (F a Ha)|].
  rewrite E. split; [exact V|]. split; [exact K|]. intros b Hb. destruct (N b Hb) as (a & _ & _ & X). exact X.
Qed.
Lemma is_details : forall envs me rs rc ps k x, (forall k p, is_call (plays envs me k (signoring (rs p))) k (ignoring (rc k p)) (fun _ => 1%nat) 1) ->
  is_call (plays envs me k (details_script rs ps x)) k (details_loop rc k ps x) (fun _ => length ps) (length ps).
Proof.
  intros envs me rs rc ps k x H. revert k x. induction ps as [|p ps IH]; intros k x; cbn [details_script details_loop length]; [apply is_ret|].
  apply (is_seq _ _ _ _ _ _ _ _ _ 1 (length ps)); [apply H|]. intros a _. replace (k + 1)%nat with (S k) by lia. apply IH.
Qed.
Lemma is_device_details : forall envs me k d id, is_call (plays envs me k (GetDeviceDetails_script d id)) k (GetDeviceDetails k envs me d id) (fun _ => 4%nat) 4.
Proof. intros. apply (is_details _ _ _ (fun k p => Read (envs k) me d (Some (mkNO id 8 p ArrayAll)))). intros. apply is_nread. Qed.
Lemma is_net_details : forall envs me k d, is_call (plays envs me k (net_GetDeviceDetails_script d)) k (net_GetDeviceDetails k envs me d) (fun _ => 4%nat) 4.
Proof. intros. apply is_details. intros. apply is_read. Qed.
Lemma is_discover : forall envs me fs k ps d, is_call (plays envs me k (discover_script ps d fs)) k (discover_loop k envs me ps d fs) (fun _ => (4 * length fs)%nat) (4 * length fs).
Proof.
  intros envs me fs. induction fs as [|f fs IH]; intros k ps d; cbn [discover_script discover_loop]; [apply is_ret|]. cbv zeta.
  replace (4 * length (f :: fs))%nat with (4 + 4 * length fs)%nat by (cbn [length]; lia). apply is_seq; [apply is_device_details|]. intros a _. apply IH.
Qed.
Lemma is_net_discover : forall envs me fs k, is_call (plays envs me k (net_discover_script fs)) k (net_discover_loop k envs me fs) (fun _ => (4 * length fs)%nat) (4 * length fs).
Proof.
  intros envs me fs. induction fs as [|f fs IH]; intros k; cbn [net_discover_script net_discover_loop]; [apply is_ret|]. cbv zeta.
  replace (4 * length (f :: fs))%nat with (4 + 4 * length fs)%nat by (cbn [length]; lia). apply is_seq; [apply is_net_details|]. intros a _.
  replace (4 * length fs)%nat with (4 * length fs + 0)%nat by lia. apply is_seq; [replace (4 * length fs + 0)%nat with (4 * length fs)%nat by lia; apply IH|]. intros bs _. apply is_ret.
Qed.
Lemma is_panic : forall A envs me k n m, is_call (plays envs me k (SEnd (@CPanic A))) k ([], CPanic) n m.
Proof. intros. split; [reflexivity|]. cbn. split; [lia|]. intros a H; discriminate H. Qed.
Lemma is_builder : forall envs me d id is k, is_call (plays envs me k (builder_script d id is)) k (builder_loop k envs me d id is) (fun _ => length is) (length is).
Proof.
  intros envs me d id is. induction is as [|i is IH]; intros k; cbn [builder_script builder_loop length]; [apply is_ret|].
  apply (is_seq _ _ _ _ _ _ _ _ _ 1 (length is)); [apply is_nread|]. intros r _. replace (k + 1)%nat with (S k) by lia.
  destruct (first_value r) as [v|]; [|apply is_panic]. destruct v; try apply is_panic.
  replace (length is) with (length is + 0)%nat by lia. apply is_seq; [replace (length is + 0)%nat with (length is) by lia; apply IH|]. intros bs _. apply is_ret.
Qed.
Lemma builder_length : forall envs me d id is k l, snd (builder_loop k envs me d id is) = COk l -> length l = length is.
Proof.
  intros envs me d id is. induction is as [|i is IH]; intros k l; cbn [builder_loop]; [intros [= <-]; reflexivity|]. unfold nbind.
  destruct (ignoring _) as [tr r]. destruct r as [r|e| |]; try (intros H; discriminate H). destruct (first_value r) as [v|]; [|intros H; discriminate H].
  destruct v; try (intros H; discriminate H). specialize (IH (S k)). destruct (builder_loop (S k) envs me d id is) as [tr' r']. cbn [snd] in IH. destruct r' as [l'|e| |]; try (intros H; discriminate H).
  cbn. intros [= <-]. cbn. rewrite (IH l' eq_refl). reflexivity.
Qed.
Lemma plays_deviceBuilder : forall envs me k d id, snd (plays envs me k (deviceObjectsBuilder_script d id)) = deviceObjectsBuilder k envs me d id /\
  (forall l, snd (deviceObjectsBuilder k envs me d id) = COk l -> fst (plays envs me k (deviceObjectsBuilder_script d id)) = (k + 1 + length l)%nat).
Proof.
  intros. unfold deviceObjectsBuilder_script, deviceObjectsBuilder, nsbind. rewrite plays_then. unfold nread_script. rewrite plays_read.
  change (Read (envs k) me d (Some (mkNO id 8 76 0))) with (ReadProperty (envs k) me (as_device (nd_dev d)) (mkPD (mkObj [] [] (mkOid 8 id) [mkProp 76 0 VNil 0]))). cbn [no_type no_inst no_prop no_index].
  destruct (ReadProperty _ _ _ _) as [tr r]. cbn [pthen nbind]. destruct r as [r|e| |]; try (cbn [plays fst snd]; rewrite app_nil_r; split; [reflexivity|intros l H; discriminate H]).
  destruct (is_builder envs me d id (zseq 1 (Z.to_nat (snd (ToUint32 r)))) (S k)) as (E & _ & N). pose proof (builder_length envs me d id (zseq 1 (Z.to_nat (snd (ToUint32 r)))) (S k)) as L.
  destruct (plays envs me (S k) _) as (k' & tr' & r'). cbn [fst snd] in *. rewrite <- E in *. cbn [fst snd] in *. split; [reflexivity|]. intros l H. rewrite (N l H), (L l H). lia.
Qed.
Lemma plays_object_list : forall envs me k d id, snd (plays envs me k (object_list_script d id)) = object_list k envs me d id /\
  (forall l, snd (object_list k envs me d id) = COk l -> fst (plays envs me k (object_list_script d id)) = (k + 1)%nat \/ fst (plays envs me k (object_list_script d id)) = (k + 2 + length l)%nat).
Proof.
  intros. unfold object_list_script, object_list. rewrite plays_then. unfold nread_script. rewrite plays_read.
  change (Read (envs k) me d (Some (mkNO id 8 76 ArrayAll))) with (ReadProperty (envs k) me (as_device (nd_dev d)) (mkPD (mkObj [] [] (mkOid 8 id) [mkProp 76 ArrayAll VNil 0]))). cbn [no_type no_inst no_prop no_index].
  destruct (ReadProperty _ _ _ _) as [tr r]. cbn [pthen]. destruct r as [out|e| |].
  - destruct (o_props (pd_object out)) as [|p ps]; [cbn [plays fst snd]; rewrite app_nil_r; split; [reflexivity|intros l _; left; lia]|]. cbn [plays fst snd]. rewrite app_nil_r.
    destruct (ToArr out) as [[b vs]|]; [|split; [reflexivity|intros l _; left; lia]]. split; [reflexivity|intros l _; left; lia].
  - destruct (plays_deviceBuilder envs me (S k) d id) as [E N]. destruct (plays envs me (S k) _) as (k' & tr' & r'). cbn [fst snd] in *. rewrite <- E in *. cbn [fst snd] in *. split; [reflexivity|].
    intros l H. right. rewrite (N l H). lia.
  - cbn [plays fst snd]. rewrite app_nil_r. split; [reflexivity|intros l H; discriminate H].
  - cbn [plays fst snd]. rewrite app_nil_r. split; [reflexivity|intros l H; discriminate H].
Qed.
Lemma plays_device_objects : forall envs me k d id w, snd (plays envs me k (DeviceObjects_script d id w)) = DeviceObjects k envs me d id w /\
  (forall l d', snd (DeviceObjects k envs me d id w) = COk (l, d') ->
     fst (plays envs me k (DeviceObjects_script d id w)) = (k + 1)%nat \/ fst (plays envs me k (DeviceObjects_script d id w)) = (k + 2 + length l)%nat).
Proof.
  intros envs me k d id w. assert (G : forall d1, snd (plays envs me k (nsbind (object_list_script d1 id) (fun l => SEnd (COk (l, d1))))) = nbind (object_list k envs me d1 id) (fun l => nret (l, d1)) /\
    (forall l d', snd (nbind (object_list k envs me d1 id) (fun l => nret (l, d1))) = COk (l, d') ->
     fst (plays envs me k (nsbind (object_list_script d1 id) (fun l => SEnd (COk (l, d1))))) = (k + 1)%nat \/ fst (plays envs me k (nsbind (object_list_script d1 id) (fun l => SEnd (COk (l, d1))))) = (k + 2 + length l)%nat)).
  { intros d1. unfold nsbind. rewrite plays_then. destruct (plays_object_list envs me k d1 id) as [E N]. destruct (plays envs me k (object_list_script d1 id)) as (k' & tr & r). cbn [fst snd] in *. rewrite <- E in *. cbn [pthen nbind snd] in *.
    destruct r as [l|e| |]; cbn [plays nret fst snd]; try rewrite app_nil_r; (split; [reflexivity|]); intros l' d' H; try discriminate H. injection H as <- <-. exact (N l eq_refl). }
  unfold DeviceObjects_script, DeviceObjects. destruct w as [[e|fs]|]; [|apply G|apply G]. cbn. split; [reflexivity|intros l d' H; discriminate H].
Qed.
(** the requests for the points of a list of objects *)
Fixpoint point_reads (l : list object_id) : nat :=
  match l with [] => 0 | o :: l' => if oid_type o =? 8 then point_reads l' else (if isPointBool (oid_type o) then 1 else 2) + point_reads l' end.
Lemma is_point : forall envs me k d p, is_call (plays envs me k (PointDetails_script d p)) k (PointDetails k envs me d p)
  (fun _ => if isPointBool (pt_type p) then 1%nat else 2%nat) (if isPointBool (pt_type p) then 1%nat else 2%nat).
Proof.
  intros. unfold PointDetails_script, PointDetails. cbv zeta. replace (if isPointBool (pt_type p) then 1%nat else 2%nat) with (1 + if isPointBool (pt_type p) then 0 else 1)%nat by (destruct (isPointBool (pt_type p)); reflexivity).
  apply is_seq; [apply is_nread|]. intros r _. destruct (isPointBool (pt_type p)); [apply is_ret|]. change 1%nat with (1 + 0)%nat at 3 4. apply is_seq; [replace (k + 1)%nat with (S k) by lia; apply is_nread|].
  intros r' _. apply is_ret.
Qed.
Lemma is_points : forall envs me d l k, is_call (plays envs me k (points_script d l)) k (points_loop k envs me d l) (fun _ => point_reads l) (point_reads l).
Proof.
  intros envs me d l. induction l as [|o l IH]; intros k; cbn [points_script points_loop point_reads]; [apply is_ret|]. destruct (oid_type o =? 8); [apply IH|].
  apply is_seq; [exact (is_point envs me k d (mkPoint (oid_inst o) (oid_type o) 0))|]. intros x _.
  replace (point_reads l) with (point_reads l + 0)%nat by lia. apply is_seq; [replace (point_reads l + 0)%nat with (point_reads l) by lia; apply IH|]. intros bs _. apply is_ret.
Qed.
Lemma points_number : forall envs me d l k xs, snd (points_loop k envs me d l) = COk xs -> length xs = length (filter (fun o => negb (oid_type o =? 8)) l).
Proof.
  intros envs me d l. induction l as [|o l IH]; intros k xs; cbn [points_loop filter]; [intros [= <-]; reflexivity|]. destruct (oid_type o =? 8); cbn [negb]; [apply IH|].
  unfold nbind at 1. destruct (PointDetails _ _ _ _ _) as [tr r]. destruct r as [x|e| |]; try (intros H; discriminate H). unfold nbind.
  specialize (IH (k + (if isPointBool (oid_type o) then 1 else 2))%nat). destruct (points_loop _ envs me d l) as [tr' r']. destruct r' as [l'|e| |]; try (intros H; discriminate H).
  cbn. intros [= <-]. cbn. rewrite (IH l' eq_refl). reflexivity.
Qed.
Lemma plays_shift : forall A me k0 (s : script A) envs k, plays envs me (k0 + k)%nat s = (let '(k', c) := plays (fun j => envs (k0 + j)%nat) me k s in ((k0 + k')%nat, c)).
Proof.
  intros A me k0 s. induction s as [r|rq c IH]; intros envs k; cbn [plays]; [reflexivity|]. destruct (alone (envs (k0 + k)%nat) me rq) as [tr r].
  replace (S (k0 + k)) with (k0 + S k)%nat by lia. rewrite IH. destruct (plays _ me (S k) (c r)) as (k' & tr' & r'). reflexivity.
Qed.
Lemma plays_points : forall envs me d id w, exists k0, snd (plays envs me 0 (GetDevicePoints_script d id w)) = GetDevicePoints envs (fun k => envs (k0 + k)%nat) me d id w /\
  forall xs, snd (GetDevicePoints envs (fun k => envs (k0 + k)%nat) me d id w) = COk xs -> exists l d', snd (DeviceObjects 0 envs me d id (Some w)) = COk (l, d') /\
    length xs = length (filter (fun o => negb (oid_type o =? 8)) l) /\ fst (plays envs me 0 (GetDevicePoints_script d id w)) = (k0 + point_reads l)%nat /\ (k0 = 1 \/ k0 = 2 + length l)%nat.
Proof.
  intros envs me d id w. unfold GetDevicePoints_script, GetDevicePoints, nsbind. rewrite plays_then. destruct (plays_device_objects envs me 0 d id (Some w)) as [E N].
  destruct (plays envs me 0 (DeviceObjects_script d id (Some w))) as (k0 & tr & r). cbn [fst snd] in *. rewrite <- E in *. cbn [pthen nbind snd] in *. exists k0.
  destruct r as [[l d']|e| |]; cbn [plays fst snd]; try rewrite app_nil_r; try (split; [reflexivity|intros xs H; discriminate H]).
  pose proof (plays_shift _ me k0 (points_script d' l) envs 0) as S. rewrite Nat.add_0_r in S. rewrite S. destruct (is_points (fun j => envs (k0 + j)%nat) me d' l 0) as (P & _ & Q).
  pose proof (points_number (fun j => envs (k0 + j)%nat) me d' l 0) as L. destruct (plays _ me 0 (points_script d' l)) as (k' & tr' & r'). cbn [fst snd] in *. rewrite <- P in *. cbn [fst snd] in *.
  split; [reflexivity|]. intros xs H. exists l, d'. split; [reflexivity|]. split; [exact (L xs H)|]. split; [rewrite (Q xs H); reflexivity|]. exact (N l d' eq_refl).
Qed.

(** ** On a shared client *)
Lemma script_shared : forall A bcast me l0 t0 i l t' (s : script A) r fs, trun bcast me t_init l0 = Some t0 -> z_free (t_z t0) i = true ->
  performs bcast me i t0 s l t' (SEnd r) fs ->
  exists envs, plays envs me 0 s = (length fs, (flat_map fi_sent fs, r)) /\ arrived_in (steps (l0 ++ l)) envs fs /\ (no_reuse (steps (l0 ++ l)) -> own_in (steps (l0 ++ l)) envs fs).
Proof.
  intros A bcast me l0 t0 i l t' s r fs R0 FR P. destruct (script_alone _ _ _ _ _ _ _ _ _ _ _ R0 FR P) as (envs & E & I1 & I2 & I3). exists envs.
  split; [exact E|]. split; [split; assumption|]. intros NR. split; [exact I1|exact (I3 NR)].
Qed.
Lemma net_discover_shared : forall bcast me l0 t0 i l t' found r fs, trun bcast me t_init l0 = Some t0 -> z_free (t_z t0) i = true ->
  performs bcast me i t0 (net_discover_script found) l t' (SEnd r) fs ->
  exists envs, NetworkDiscover envs me (inr found) = (flat_map fi_sent fs, r) /\ arrived_in (steps (l0 ++ l)) envs fs /\ (no_reuse (steps (l0 ++ l)) -> own_in (steps (l0 ++ l)) envs fs).
Proof.
  intros bcast me l0 t0 i l t' found r fs R0 FR P. destruct (script_shared _ _ _ _ _ _ _ _ _ _ _ R0 FR P) as (envs & E & H). exists envs. split; [|exact H].
  destruct (is_net_discover envs me found 0) as (V & _). rewrite E in V. symmetry. exact V.
Qed.
Lemma discover_shared : forall bcast me l0 t0 i l t' d found r fs, trun bcast me t_init l0 = Some t0 -> z_free (t_z t0) i = true ->
  performs bcast me i t0 (discover_script [] d found) l t' (SEnd r) fs ->
  exists envs, DeviceDiscover envs me d (inr found) = (flat_map fi_sent fs, r) /\ arrived_in (steps (l0 ++ l)) envs fs /\ (no_reuse (steps (l0 ++ l)) -> own_in (steps (l0 ++ l)) envs fs).
Proof.
  intros bcast me l0 t0 i l t' d found r fs R0 FR P. destruct (script_shared _ _ _ _ _ _ _ _ _ _ _ R0 FR P) as (envs & E & H). exists envs. split; [|exact H].
  destruct (is_discover envs me found 0 [] d) as (V & _). rewrite E in V. symmetry. exact V.
Qed.
Lemma device_objects_shared : forall bcast me l0 t0 i l t' d id w r fs, trun bcast me t_init l0 = Some t0 -> z_free (t_z t0) i = true ->
  performs bcast me i t0 (DeviceObjects_script d id w) l t' (SEnd r) fs ->
  exists envs, DeviceObjects 0 envs me d id w = (flat_map fi_sent fs, r) /\ arrived_in (steps (l0 ++ l)) envs fs /\ (no_reuse (steps (l0 ++ l)) -> own_in (steps (l0 ++ l)) envs fs).
Proof.
  intros bcast me l0 t0 i l t' d id w r fs R0 FR P. destruct (script_shared _ _ _ _ _ _ _ _ _ _ _ R0 FR P) as (envs & E & H). exists envs. split; [|exact H].
  destruct (plays_device_objects envs me 0 d id w) as (V & _). rewrite E in V. symmetry. exact V.
Qed.
Lemma points_shared : forall bcast me l0 t0 i l t' d id w r fs, trun bcast me t_init l0 = Some t0 -> z_free (t_z t0) i = true ->
  performs bcast me i t0 (GetDevicePoints_script d id w) l t' (SEnd r) fs ->
  exists envs k0, GetDevicePoints envs (fun k => envs (k0 + k)%nat) me d id w = (flat_map fi_sent fs, r) /\ arrived_in (steps (l0 ++ l)) envs fs /\ (no_reuse (steps (l0 ++ l)) -> own_in (steps (l0 ++ l)) envs fs).
Proof.
  intros bcast me l0 t0 i l t' d id w r fs R0 FR P. destruct (script_shared _ _ _ _ _ _ _ _ _ _ _ R0 FR P) as (envs & E & H).
  destruct (plays_points envs me d id w) as (k0 & V & _). exists envs, k0. split; [|exact H]. rewrite E in V. symmetry. exact V.
Qed.

(** ** How long they take *)
Fixpoint all_reads {A} (s : script A) : Prop :=
  match s with SEnd _ => True | SCall rq c => (exists dev rp, rq = RqRead dev rp) /\ forall x, all_reads (c x) end.
Lemma reads_then : forall A B (s : script A) (f : outcome A -> script B), all_reads s -> (forall r, all_reads (f r)) -> all_reads (sthen s f).
Proof. intros A B s f. induction s as [r|rq c IH]; intros S F; cbn [sthen all_reads] in *; [apply F|]. split; [exact (proj1 S)|]. intros x. apply IH; [apply S|exact F]. Qed.
Lemma reads_bind : forall A B (s : script A) (f : A -> script B), all_reads s -> (forall a, all_reads (f a)) -> all_reads (nsbind s f).
Proof. intros A B s f S F. apply reads_then; [exact S|]. intros r. destruct r; cbn; auto. Qed.
Lemma reads_read : forall dev rp, all_reads (read_script dev rp).
Proof. intros. cbn. split; [eauto|]. intros x. exact I. Qed.
Lemma reads_ignoring : forall s, all_reads s -> all_reads (signoring s).
Proof. intros s S. apply reads_then; [exact S|]. intros r. exact I. Qed.
Lemma reads_nread : forall d o, all_reads (nread_script d o).
Proof. intros. apply reads_read. Qed.
Lemma reads_details : forall rd ps x, (forall p, all_reads (rd p)) -> all_reads (details_script rd ps x).
Proof. intros rd ps. induction ps as [|p ps IH]; intros x R; cbn [details_script]; [exact I|]. apply reads_bind; [apply reads_ignoring, R|]. intros a. apply IH, R. Qed.
Lemma reads_net_discover : forall fs, all_reads (net_discover_script fs).
Proof.
  intros fs. induction fs as [|f fs IH]; cbn [net_discover_script]; [exact I|]. cbv zeta. apply reads_bind; [apply reads_details; intros; apply reads_read|].
  intros x. apply reads_bind; [exact IH|]. intros bs. exact I.
Qed.
Lemma reads_discover : forall fs ps d, all_reads (discover_script ps d fs).
Proof.
  intros fs. induction fs as [|f fs IH]; intros ps d; cbn [discover_script]; [exact I|]. cbv zeta. apply reads_bind; [apply reads_details; intros; apply reads_nread|]. intros x. apply IH.
Qed.
Lemma reads_builder : forall d id is, all_reads (builder_script d id is).
Proof.
  intros d id is. induction is as [|i is IH]; cbn [builder_script]; [exact I|]. apply reads_bind; [apply reads_ignoring, reads_nread|]. intros r.
  destruct (first_value r) as [v|]; [|exact I]. destruct v; try exact I. apply reads_bind; [exact IH|]. intros l. exact I.
Qed.
Lemma reads_device_objects : forall d id w, all_reads (DeviceObjects_script d id w).
Proof.
  intros d id w. assert (G : forall d1, all_reads (nsbind (object_list_script d1 id) (fun l => SEnd (COk (l, d1))))).
  { intros d1. apply reads_bind; [|intros l; exact I]. apply reads_then; [apply reads_nread|]. intros r. destruct r as [out|e| |]; try exact I; [destruct (o_props _); exact I|].
    apply reads_bind; [apply reads_nread|]. intros r. apply reads_builder. }
  unfold DeviceObjects_script. destruct w as [[e|fs]|]; [exact I|apply G|apply G].
Qed.
Lemma reads_points : forall d l, all_reads (points_script d l).
Proof.
  intros d l. induction l as [|o l IH]; cbn [points_script]; [exact I|]. destruct (oid_type o =? 8); [exact IH|]. apply reads_bind.
  - unfold PointDetails_script. cbv zeta. apply reads_bind; [apply reads_ignoring, reads_nread|]. intros r. destruct (isPointBool _); [exact I|]. apply reads_bind; [apply reads_ignoring, reads_nread|]. intros r'. exact I.
  - intros x. apply reads_bind; [exact IH|]. intros xs. exact I.
Qed.
Lemma reads_device_points : forall d id w, all_reads (GetDevicePoints_script d id w).
Proof. intros. apply reads_bind; [apply reads_device_objects|]. intros r. apply reads_points. Qed.

Lemma consumed_reads : forall A fs (s s' : script A), all_reads s -> consumed s fs s' -> all_reads s' /\ limits fs = 6000 * Z.of_nat (length fs).
Proof.
  intros A fs. induction fs as [|f fs IH]; intros s s' S C; cbn [consumed] in C; [subst; auto|]. destruct C as (k & -> & C). destruct S as [(dev & rp & Q) S].
  destruct (IH _ _ (S _) C) as [H1 H2]. split; [exact H1|]. unfold limits in *. cbn [fold_right length]. rewrite H2, Q. cbn [limit]. lia.
Qed.
Lemma reads_no_loop : forall A bcast me l t (s : script A) t' s' fs i, zreach bcast me (t_z t) -> keeps i t s -> performs bcast me i t s l t' s' fs ->
  z_dead (t_z t') = false -> all_reads s -> no_loop bcast me i t l.
Proof.
  intros A bcast me l t s t' s' fs i RE K P LV AR la lb ta x -> R N. destruct (looping x) eqn:LX; [|reflexivity]. exfalso.
  pose proof (performs_run _ _ _ _ _ _ _ _ _ _ P) as RU. pose proof (reach_run _ _ _ _ _ RE RU) as RE'. rewrite (trun_seq _ _ _ _ _ _ R) in RU.
  pose proof (loop_stays_run _ _ _ _ _ _ _ (reach_run _ _ _ _ _ RE R) RU LV N LX) as N'.
  destruct (performs_follows _ _ _ _ _ _ _ _ _ _ P K) as (C & (x' & Nx & Kx) & _). rewrite N' in Nx. injection Nx as <-. destruct (consumed_reads _ _ _ _ AR C) as [AR' _].
  destruct x as [| |rq ? ? ? ? q| | | |]; try discriminate LX. cbn [req_of] in Kx. destruct Kx as (k & ->). destruct AR' as [(dev & rp & ->) _].
  rewrite (only_lists_loop _ _ _ _ _ (zreach_up _ _ _ RE' LV) N' eq_refl eq_refl) in LX. discriminate LX.
Qed.
Lemma reads_in_time : forall A bcast me l0 t0 i l t' (s s' : script A) fs, trun bcast me t_init l0 = Some t0 -> z_free (t_z t0) i = true ->
  performs bcast me i t0 s l t' s' fs -> all_reads s -> prompt bcast me t0 l -> without_pause bcast me i t0 s l -> z_dead (t_z t') = false ->
  t_now t' - t_now t0 <= 6000 * (Z.of_nat (length fs) + match s' with SCall _ _ => 1 | SEnd _ => 0 end).
Proof.
  intros A bcast me l0 t0 i l t' s s' fs R0 FR P AR PR WP LV. pose proof (reach_run _ _ _ _ _ (reach_init bcast me) R0) as RE.
  assert (K : keeps i t0 s). { destruct (free_parts _ _ FR) as (N & _). exists NFree. split; [exact N|exact I]. }
  pose proof (script_in_time _ _ _ _ _ _ _ _ _ _ _ R0 FR P PR (reads_no_loop _ _ _ _ _ _ _ _ _ _ RE K P LV AR) WP LV) as H.
  destruct (performs_follows _ _ _ _ _ _ _ _ _ _ P K) as (C & _). destruct (consumed_reads _ _ _ _ AR C) as [AR' L]. rewrite L in H.
  destruct s' as [r|rq k]; cbn [next_limit] in H; [lia|]. destruct AR' as [(dev & rp & ->) _]. cbn [limit] in H. lia.
Qed.
Lemma net_discover_time : forall bcast me l0 t0 i l t' found r fs, trun bcast me t_init l0 = Some t0 -> z_free (t_z t0) i = true ->
  performs bcast me i t0 (net_discover_script found) l t' (SEnd r) fs -> prompt bcast me t0 l -> without_pause bcast me i t0 (net_discover_script found) l -> z_dead (t_z t') = false ->
  t_now t' - t_now t0 <= 24000 * Z.of_nat (length found).
Proof.
  intros bcast me l0 t0 i l t' found r fs R0 FR P PR WP LV. pose proof (reads_in_time _ _ _ _ _ _ _ _ _ _ _ R0 FR P (reads_net_discover _) PR WP LV) as T. cbv iota in T.
  destruct (script_shared _ _ _ _ _ _ _ _ _ _ _ R0 FR P) as (envs & E & _). destruct (is_net_discover envs me found 0) as (_ & B & _). rewrite E in B. cbn [fst] in B. lia.
Qed.
Lemma discover_time : forall bcast me l0 t0 i l t' d found r fs, trun bcast me t_init l0 = Some t0 -> z_free (t_z t0) i = true ->
  performs bcast me i t0 (discover_script [] d found) l t' (SEnd r) fs -> prompt bcast me t0 l -> without_pause bcast me i t0 (discover_script [] d found) l -> z_dead (t_z t') = false ->
  t_now t' - t_now t0 <= 24000 * Z.of_nat (length found).
Proof.
  intros bcast me l0 t0 i l t' d found r fs R0 FR P PR WP LV. pose proof (reads_in_time _ _ _ _ _ _ _ _ _ _ _ R0 FR P (reads_discover _ _ _) PR WP LV) as T. cbv iota in T.
  destruct (script_shared _ _ _ _ _ _ _ _ _ _ _ R0 FR P) as (envs & E & _). destruct (is_discover envs me found 0 [] d) as (_ & B & _). rewrite E in B. cbn [fst] in B. lia.
Qed.
Lemma device_objects_time : forall bcast me l0 t0 i l t' d id w os d' fs, trun bcast me t_init l0 = Some t0 -> z_free (t_z t0) i = true ->
  performs bcast me i t0 (DeviceObjects_script d id w) l t' (SEnd (COk (os, d'))) fs -> prompt bcast me t0 l -> without_pause bcast me i t0 (DeviceObjects_script d id w) l -> z_dead (t_z t') = false ->
  t_now t' - t_now t0 <= 6000 * (2 + Z.of_nat (length os)).
Proof.
  intros bcast me l0 t0 i l t' d id w os d' fs R0 FR P PR WP LV. pose proof (reads_in_time _ _ _ _ _ _ _ _ _ _ _ R0 FR P (reads_device_objects _ _ _) PR WP LV) as T. cbv iota in T.
  destruct (script_shared _ _ _ _ _ _ _ _ _ _ _ R0 FR P) as (envs & E & _). destruct (plays_device_objects envs me 0 d id w) as (V & B). rewrite E in V, B. cbn [fst snd] in V, B.
  rewrite <- V in B. destruct (B os d' eq_refl) as [B1|B1]; lia.
Qed.
Lemma point_reads_le : forall l, (point_reads l <= 2 * length (filter (fun o => negb (oid_type o =? 8)%Z) l))%nat.
Proof. intros l. induction l as [|o l IH]; cbn [point_reads filter]; [lia|]. destruct (oid_type o =? 8); cbn [negb]; [exact IH|]. cbn [length]. destruct (isPointBool _); lia. Qed.
Lemma points_time : forall bcast me l0 t0 i l t' d id w ps fs, trun bcast me t_init l0 = Some t0 -> z_free (t_z t0) i = true ->
  performs bcast me i t0 (GetDevicePoints_script d id w) l t' (SEnd (COk ps)) fs -> prompt bcast me t0 l -> without_pause bcast me i t0 (GetDevicePoints_script d id w) l -> z_dead (t_z t') = false ->
  exists envs os d', arrived_in (steps (l0 ++ l)) envs fs /\ snd (DeviceObjects 0 envs me d id (Some w)) = COk (os, d') /\
    length ps = length (filter (fun o => negb (oid_type o =? 8)) os) /\
    t_now t' - t_now t0 <= 6000 * (2 + Z.of_nat (length os) + 2 * Z.of_nat (length ps)).
Proof.
  intros bcast me l0 t0 i l t' d id w ps fs R0 FR P PR WP LV. pose proof (reads_in_time _ _ _ _ _ _ _ _ _ _ _ R0 FR P (reads_device_points _ _ _) PR WP LV) as T. cbv iota in T.
  destruct (script_shared _ _ _ _ _ _ _ _ _ _ _ R0 FR P) as (envs & E & AR & _). destruct (plays_points envs me d id w) as (k0 & V & B). rewrite E in V, B. cbn [fst snd] in V, B.
  rewrite <- V in B. destruct (B ps eq_refl) as (os & d' & O & L & F & K). exists envs, os, d'. split; [exact AR|]. split; [exact O|]. split; [exact L|].
  pose proof (point_reads_le os) as PL. lia.
Qed.
