(** The object list of a device that changes while it is read. *)
From Coq Require Import Lia ZifyBool ZifyNat Permutation.
From Verif Require Import ModelNet SpecWire SpecCodec SpecLayers SpecServices SpecObs SpecClient SpecNet SpecDevice SpecSnapshot SpecInventory
  ProofsWire ProofsTag ProofsApp ProofsBits ProofsTrunc ProofsCodec ProofsLayers ProofsLayerProps ProofsServices ProofsMulti ProofsTerm ProofsServiceProps
  ProofsRecv ProofsCall ProofsAccess ProofsObjects ProofsTypes ProofsNames ProofsDevice ProofsSnapshot.
Ltac Zify.zify_post_hook ::= Z.div_mod_to_equations.

(** ** Single calls *)
Lemma len_call : forall (S : Type) (I : S -> Prop) (M : machine S) e me dev ip port hdr id s x n, reached dev ip port hdr -> present me = false ->
  valid_oid (dv_id dev) -> m_read M s (dv_id dev) 76 0 = inl [SVal (VUint n)] -> in_u32 n ->
  hosts_read M ip port hdr s (dv_id dev) 76 0 x e id ->
  exists tr, match x with Arrived => objectListLen e me dev = (tr, COk n) | _ => exists y, objectListLen e me dev = (tr, CErr y) end.
Proof.
  intros S I M e me dev ip port hdr id s x n Hl Hm Ho Hr Hn (Hid & Hb & H). cbv zeta in H.
  set (g := mkDgram ip port (frame_with hdr (spec_read_request id (dv_id dev) 76 0))) in *.
  destruct (reached_facts _ _ _ _ Hl) as (HU & Hfu & _ & _ & _ & HH & _).
  assert (H76 : in_u32 76) by (unfold in_u32; lia). assert (H0 : in_u32 0) by (unfold in_u32; lia).
  assert (HZ : zlen hdr + zlen (spec_read_request id (dv_id dev) 76 0) <= 65531).
  { unfold spec_read_request. rewrite zlen_app. pose proof (reference_len (dv_id dev) 76 0 H76 H0). change (zlen (spec_request id 12)) with 4. lia. }
  assert (EX : exchange e 0 (addr_SetLength (dv_addr dev)) (hdr ++ spec_read_request id (dv_id dev) 76 0)
     = ([g], if at_sent (ev_att e 0 g) then match at_reply (ev_att e 0 g) with Some p => inr p | None => inl CTimeout end else inl CSend)).
  { unfold exchange, send_dgram. rewrite HU, frame_small, Hfu by (rewrite zlen_app; lia). fold (frame_with hdr (spec_read_request id (dv_id dev) 76 0)). fold g. cbv zeta. destruct (at_sent _); [destruct (at_reply _)|]; reflexivity. }
  unfold objectListLen. change (mkPD (mkObj [] [] (dv_id dev) [mkProp propObjectList 0 VNil 0])) with (request (dv_id dev) 76 0).
  unfold ReadProperty. rewrite Hid, (via_header _ _ _ _ _ Hl Hm). replace (u8 id) with id by (unfold u8; unfold is_byte in Hb; lia).
  rewrite enc_read by (first [assumption|unfold valid_property; lia]). cbn [ebuf]. unfold retryCount. cbn [rp_loop]. rewrite EX. clear EX. destruct x.
  - rewrite H. eexists. eexists. reflexivity.
  - destruct H as (-> & ->). eexists. eexists. reflexivity.
  - destruct H as (-> & ->). eexists. eexists. reflexivity.
  - destruct H as (-> & known & src & fn & np & reply & Hf & Hnp & Hnm & -> & Hd). cbn [react snd] in Hd. rewrite Hr in Hd.
    apply arrived_read in Hd; [|assumption..]. subst reply.
    destruct (read_ack id (dv_id dev) 76 0 [SVal (VUint n)] Ho H76 H0) as (d1 & d2 & E1 & E2 & E3); [constructor; [exact Hn|constructor]|].
    rewrite E1, E2, E3. eexists. reflexivity.
Qed.
Lemma told_call : forall (S : Type) (I : S -> Prop) (M : machine S) fuel e me dev ip port hdr id st xs f, reached dev ip port hdr -> present me = false ->
  machine_ok I M -> (forall k, I (st k)) -> reads_ok xs ->
  dv_maxapdu dev <= 65531 -> zlen hdr + zlen (spec_readmulti_request id xs) <= dv_maxapdu dev ->
  hosts_reads M ip port hdr fuel st xs f e id ->
  exists tr, match told f (fun j => snapshot M (st j) xs) with
  | Some objs => ReadMultiProperty fuel e me dev (mkMPD (map read_object xs)) = (tr, COk objs)
  | None => exists x, ReadMultiProperty fuel e me dev (mkMPD (map read_object xs)) = (tr, CErr x)
  end.
Proof.
  intros S I M fuel e me dev ip port hdr id st xs f Hl Hm HM HI HX H1 H2 HH.
  pose proof (multi_read S I M fuel e me dev ip port hdr id st xs f Hl Hm HM HI HX H1 H2 HH) as K. cbv zeta in K. unfold told.
  fold (brings M st xs f 0) (brings M st xs f 1). destruct (brings M st xs f 0) as [a|]; [eexists; exact K|]. destruct (brings M st xs f 1) as [a|]; eexists; exact K.
Qed.
Lemma told_some : forall A f (h : nat -> option A) a, told f h = Some a -> exists j, (j < 2)%nat /\ f j = Arrived /\ h j = Some a.
Proof.
  intros A f h a H. unfold told in H. destruct (match f 0%nat with Arrived => h 0%nat | _ => None end) as [b|] eqn:E.
  - exists 0%nat. destruct (f 0%nat); try discriminate. split; [lia|]. split; [reflexivity|congruence].
  - exists 1%nat. destruct (f 1%nat); try discriminate. split; [lia|]. split; [reflexivity|exact H].
Qed.
Lemma told_none : forall A f (h : nat -> option A), told f h = None -> forall j, (j < 2)%nat -> f j = Arrived -> h j = None.
Proof.
  intros A f h H j Hj F. unfold told in H. destruct j as [|[|j]]; [| |lia].
  - rewrite F in H. destruct (h 0%nat); [discriminate|reflexivity].
  - rewrite F in H. destruct (match f 0%nat with Arrived => h 0%nat | _ => None end); [discriminate|exact H].
Qed.
Lemma told_ext : forall A B f (h : nat -> option A) (h' : nat -> option B) (u : A -> B), (forall j, h' j = option_map u (h j)) -> told f h' = option_map u (told f h).
Proof.
  intros A B f h h' u H. unfold told. rewrite !H. destruct (f 0%nat), (f 1%nat), (h 0%nat), (h 1%nat); reflexivity.
Qed.
Lemma each_all : forall A B (h : A -> option B) (u : A -> B) l, (forall a, In a l -> h a = Some (u a)) -> each h l = Some (map u l).
Proof.
  induction l as [|a l IH]; intro H; [reflexivity|]. cbn [each map]. rewrite (H a (or_introl eq_refl)), IH by (intros b Hb; apply H; right; exact Hb). reflexivity.
Qed.
Lemma each_none : forall A B (h : A -> option B) a l, In a l -> h a = None -> each h l = None.
Proof.
  induction l as [|b l IH]; intros Hin H; [contradiction|]. cbn [each]. destruct Hin as [->|Hin]; [rewrite H; reflexivity|].
  rewrite (IH Hin H). destruct (h b); reflexivity.
Qed.
Lemma indices_in : forall c i, In i (indices c) <-> fst c <= i <= snd c.
Proof. intros c i. unfold indices. rewrite zseq_in. lia. Qed.
Definition listed (dev : object_id) (v : inventory) (c : Z * Z) : list object :=
  [mkObj [] [] dev (map (fun i => mkProp 76 i (VOid (entry (iv_ids v) i)) 0) (indices c))].
Lemma snapshot_part : forall (S : Type) (M : machine S) dev s v c, holds M dev s v -> 1 <= fst c <= snd c -> snd c < whole ->
  snapshot M s (list_request dev c) = option_map (fun _ => listed dev v c) (part c v).
Proof.
  intros S M dev s v c (_ & H & _) Hc Hw. unfold snapshot, list_request, part, listed. cbn [each fst snd]. destruct (snd c <=? zlen (iv_ids v)) eqn:E.
  - rewrite (each_all _ _ _ (fun y => mkProp 76 (snd y) (VOid (entry (iv_ids v) (snd y))) 0)).
    + cbn [option_map]. rewrite map_map. reflexivity.
    + intros y Hy. apply in_map_iff in Hy. destruct Hy as (i & <- & Hi). apply indices_in in Hi. cbn [fst snd]. specialize (H i ltac:(lia)).
      replace (i <=? zlen (iv_ids v)) with true in H by lia. rewrite H. reflexivity.
  - rewrite (each_none _ _ _ (76, snd c)); [reflexivity|apply in_map; apply indices_in; lia|]. cbn [fst snd]. specialize (H (snd c) ltac:(lia)). rewrite E in H. destruct H as (x & ->). reflexivity.
Qed.
Lemma ids_of_listed : forall ids l, ids_of (map (fun i => mkProp 76 i (VOid (entry ids i)) 0) l) = Some (map (entry ids) l).
Proof. induction l as [|i l IH]; [reflexivity|]. cbn [map ids_of pr_data]. rewrite IH. reflexivity. Qed.
Lemma range_call : forall (S : Type) (I : S -> Prop) (M : machine S) fuel e me dev ip port hdr id st seen f c, reached dev ip port hdr -> present me = false ->
  machine_ok I M -> (forall k, I (st k)) -> (forall k, holds M (dv_id dev) (st k) (seen k)) -> valid_oid (dv_id dev) ->
  dv_maxapdu dev <= 65531 -> zlen hdr + zlen (spec_readmulti_request id (list_request (dv_id dev) c)) <= dv_maxapdu dev ->
  1 <= fst c <= snd c -> snd c < whole ->
  hosts_reads M ip port hdr fuel st (list_request (dv_id dev) c) f e id ->
  exists tr, match told f (fun j => part c (seen j)) with
  | Some l => objectsRange fuel e me dev (fst c) (snd c) = (tr, COk l)
  | None => exists x, objectsRange fuel e me dev (fst c) (snd c) = (tr, CErr x)
  end.
Proof.
  intros S I M fuel e me dev ip port hdr id st seen f c Hl Hm HM HI HH Ho H1 H2 Hc Hw HR.
  assert (HU : Forall in_u32 (indices c)) by (apply Forall_forall; intros i Hi; apply indices_in in Hi; unfold in_u32, whole in *; lia).
  assert (HX : reads_ok (list_request (dv_id dev) c)).
  { unfold reads_ok, list_request. constructor; [|constructor]. cbn [fst snd]. split; [exact Ho|]. split.
    - intro C. assert (In (fst c) (indices c)) as D by (apply indices_in; lia). apply (in_map (fun i => (76, i))) in D. rewrite C in D. contradiction D.
    - rewrite Forall_map. eapply Forall_impl; [|exact HU]. intros a Ha. cbn [fst snd]. split; [unfold in_u32; lia|exact Ha]. }
  destruct (told_call S I M fuel e me dev ip port hdr id st _ f Hl Hm HM HI HX H1 H2 HR) as (tr & K).
  unfold objectsRange. rewrite range_props_eq by assumption.
  assert (EQ : [mkObj [] [] (dv_id dev) (map (fun i => mkProp propObjectList i VNil 0) (indices c))] = map read_object (list_request (dv_id dev) c)).
  { unfold list_request, read_object. cbn [map fst snd]. rewrite map_map. reflexivity. }
  rewrite EQ. clear EQ.
  assert (T : forall j, snapshot M (st j) (list_request (dv_id dev) c) = option_map (fun _ => listed (dv_id dev) (seen j) c) (part c (seen j))).
  { intro j. apply snapshot_part; [apply HH|exact Hc|exact Hw]. }
  assert (T2 : forall j, snapshot M (st j) (list_request (dv_id dev) c)
     = option_map (fun l => [mkObj [] [] (dv_id dev) (map (fun p => mkProp 76 (fst p) (VOid (snd p)) 0) (combine (indices c) l))]) (part c (seen j))).
  { intro j. rewrite T. unfold part, listed. destruct (snd c <=? zlen (iv_ids (seen j))); [|reflexivity]. cbn [option_map]. do 3 f_equal.
    generalize (indices c). intro l. induction l as [|i l IH]; [reflexivity|]. cbn [map combine fst snd]. rewrite IH. reflexivity. }
  rewrite (told_ext _ _ f _ _ _ T2) in K. destruct (told f (fun j => part c (seen j))) as [l|] eqn:TE; cbn [option_map] in K.
  - rewrite K. exists (tr ++ []). cbn [cbind o_props]. apply told_some in TE. destruct TE as (j & _ & _ & TE). unfold part in TE. destruct (_ <=? _); [|discriminate]. injection TE as <-.
    assert (EI : map (fun p : Z * object_id => mkProp 76 (fst p) (VOid (snd p)) 0) (combine (indices c) (map (entry (iv_ids (seen j))) (indices c)))
       = map (fun i => mkProp 76 i (VOid (entry (iv_ids (seen j)) i)) 0) (indices c)).
    { generalize (indices c). intro l. induction l as [|i l IH]; [reflexivity|]. cbn [map combine fst snd]. rewrite IH. reflexivity. }
    rewrite EI, ids_of_listed. reflexivity.
  - destruct K as (x & K). rewrite K. exists tr. eexists. reflexivity.
Qed.

(** ** The list *)
Definition adds (acc l : list object_id) : list object_id := fold_left (fun acc o => if existsb (oid_eqb o) acc then acc else acc ++ [o]) l acc.
Lemma adds_in : forall l acc o, In o (adds acc l) <-> In o acc \/ In o l.
Proof.
  induction l as [|a l IH]; intros acc o; cbn [adds fold_left In]; [tauto|]. fold (adds (if existsb (oid_eqb a) acc then acc else acc ++ [a]) l). rewrite IH.
  destruct (existsb (oid_eqb a) acc) eqn:E.
  - apply existsb_exists in E. destruct E as (b & Hb & E). apply oid_eqb_eq in E. subst b. split; [tauto|]. intros [H|[->|H]]; auto.
  - rewrite in_app_iff. cbn [In]. tauto.
Qed.
Lemma adds_nodup : forall l acc, NoDup acc -> NoDup (adds acc l).
Proof.
  induction l as [|a l IH]; intros acc H; [exact H|]. cbn [adds fold_left]. fold (adds (if existsb (oid_eqb a) acc then acc else acc ++ [a]) l). apply IH.
  destruct (existsb (oid_eqb a) acc) eqn:E; [exact H|]. apply (Permutation_NoDup (l := a :: acc)); [apply Permutation_cons_append|]. constructor; [|exact H].
  intro C. assert (existsb (oid_eqb a) acc = true) as D by (apply existsb_exists; exists a; split; [exact C|apply oid_eqb_refl]). congruence.
Qed.
Lemma om_set_old : forall acc a, In a acc -> om_set a (mkObj [] [] a []) (bare acc) = bare acc.
Proof.
  induction acc as [|b acc IH]; intros a H; [contradiction|]. cbn [bare map om_set]. destruct (oid_eqb a b) eqn:E.
  - apply oid_eqb_eq in E. subst b. reflexivity.
  - f_equal. apply IH. destruct H as [->|H]; [rewrite oid_eqb_refl in E; discriminate|exact H].
Qed.
Lemma objectCopy_adds : forall l acc, objectCopy (bare acc) l = bare (adds acc l).
Proof.
  induction l as [|a l IH]; intros acc; [reflexivity|]. unfold objectCopy. cbn [fold_left adds]. fold (adds (if existsb (oid_eqb a) acc then acc else acc ++ [a]) l).
  rewrite <- IH. unfold objectCopy. f_equal. destruct (existsb (oid_eqb a) acc) eqn:E.
  - apply om_set_old. apply existsb_exists in E. destruct E as (b & Hb & E). apply oid_eqb_eq in E. subst b. exact Hb.
  - rewrite om_set_new; [unfold bare; rewrite map_app; reflexivity|]. unfold bare. rewrite map_map. cbn [fst]. rewrite map_id. intro C.
    assert (existsb (oid_eqb a) acc = true) as D by (apply existsb_exists; exists a; split; [exact C|apply oid_eqb_refl]). congruence.
Qed.
Lemma chunks_call : forall (S : Type) (I : S -> Prop) (M : machine S) fuel envs inv me dev ip port hdr st seen f, reached dev ip port hdr -> present me = false ->
  machine_ok I M -> (forall k j, I (st k j)) -> (forall k j, holds M (dv_id dev) (st k j) (seen k j)) -> valid_oid (dv_id dev) ->
  dv_maxapdu dev <= 65531 -> forall cs k acc,
  (forall c, In c cs -> forall id, zlen hdr + zlen (spec_readmulti_request id (list_request (dv_id dev) c)) <= dv_maxapdu dev) ->
  Forall (fun c => 1 <= fst c <= snd c /\ snd c < whole) cs ->
  (forall j c, nth_error cs j = Some c -> hosts_reads M ip port hdr fuel (st (k + j)%nat) (list_request (dv_id dev) c) (f (k + j)%nat) (envs (k + j)%nat) (inv (k + j)%nat)) ->
  exists tr, match collect seen f k cs with
  | Some l => read_chunks fuel k envs me dev cs (bare acc) = (tr, COk (bare (adds acc l)))
  | None => exists x, read_chunks fuel k envs me dev cs (bare acc) = (tr, CErr x)
  end.
Proof.
  intros S I M fuel envs inv me dev ip port hdr st seen f Hl Hm HM HI HH Ho H1. induction cs as [|c cs IH]; intros k acc HS HC HR.
  { exists []. reflexivity. }
  apply Forall_cons_iff in HC. destruct HC as ((Hc & Hw) & HC). pose proof (HR 0%nat c eq_refl) as R0. rewrite Nat.add_0_r in R0.
  destruct (range_call S I M fuel (envs k) me dev ip port hdr (inv k) (st k) (seen k) (f k) c Hl Hm HM (HI k) (HH k) Ho H1 (HS c (or_introl eq_refl) (inv k)) Hc Hw R0) as (tr & K).
  destruct c as [start stop]. cbn [fst snd] in K. cbn [collect read_chunks]. destruct (told (f k) (fun j => part (start, stop) (seen k j))) as [a|].
  - rewrite K. cbn [cbind]. rewrite objectCopy_adds.
    destruct (IH (Datatypes.S k) (adds acc a)) as (tr' & K').
    + intros c' Hc'. apply HS. right. exact Hc'.
    + exact HC.
    + intros j c' Hj. replace (Datatypes.S k + j)%nat with (k + Datatypes.S j)%nat by lia. apply HR. exact Hj.
    + exists (tr ++ tr'). destruct (collect seen f (Datatypes.S k) cs) as [b|].
      * rewrite K'. unfold adds. rewrite fold_left_app. reflexivity.
      * destruct K' as (x & K'). rewrite K'. exists x. reflexivity.
  - destruct K as (x & K). rewrite K. exists tr. eexists. reflexivity.
Qed.
Lemma collect_some : forall seen f cs k l, collect seen f k cs = Some l -> Forall (fun c => 1 <= fst c <= snd c) cs ->
  (forall o, In o l -> exists k' j i, (k <= k' < k + length cs)%nat /\ moment f k' j /\ In i (flat_map indices cs) /\ i <= zlen (iv_ids (seen k' j)) /\ o = entry (iv_ids (seen k' j)) i)
  /\ (forall i, In i (flat_map indices cs) -> exists k' j, (k <= k')%nat /\ moment f k' j /\ i <= zlen (iv_ids (seen k' j)) /\ In (entry (iv_ids (seen k' j)) i) l).
Proof.
  intros seen f. induction cs as [|c cs IH]; intros k l E HC; cbn [collect] in E.
  { injection E as <-. split; [intros o []|intros i []]. }
  apply Forall_cons_iff in HC. destruct HC as (Hc & HC).
  destruct (told (f k) (fun j => part c (seen k j))) as [a|] eqn:T; [|discriminate]. destruct (collect seen f (S k) cs) as [b|] eqn:C; [|discriminate]. injection E as <-.
  apply told_some in T. destruct T as (j & Hj & F & P). unfold part in P. destruct (snd c <=? zlen (iv_ids (seen k j))) eqn:Z; [|discriminate]. injection P as <-.
  destruct (IH (S k) b C HC) as (A & B). cbn [flat_map length]. split.
  - intros o Ho. apply in_app_or in Ho. destruct Ho as [Ho|Ho].
    + apply in_map_iff in Ho. destruct Ho as (i & <- & Hi). exists k, j, i. split; [lia|]. split; [split; assumption|]. split; [apply in_or_app; left; exact Hi|].
      apply indices_in in Hi. split; [lia|reflexivity].
    + destruct (A o Ho) as (k' & j' & i & K1 & K2 & K3 & K4 & K5). exists k', j', i. split; [lia|]. split; [exact K2|]. split; [apply in_or_app; right; exact K3|]. split; assumption.
  - intros i Hi. apply in_app_or in Hi. destruct Hi as [Hi|Hi].
    + exists k, j. split; [lia|]. split; [split; assumption|]. split; [apply indices_in in Hi; lia|]. apply in_or_app. left. apply in_map. exact Hi.
    + destruct (B i Hi) as (k' & j' & K1 & K2 & K3 & K4). exists k', j'. split; [lia|]. split; [exact K2|]. split; [exact K3|]. apply in_or_app. right. exact K4.
Qed.
Lemma collect_none : forall seen f cs k, collect seen f k cs = None -> exists k' c, (k <= k')%nat /\ In c cs /\ forall j, moment f k' j -> zlen (iv_ids (seen k' j)) < snd c.
Proof.
  intros seen f. induction cs as [|c cs IH]; intros k E; cbn [collect] in E; [discriminate|].
  destruct (told (f k) (fun j => part c (seen k j))) as [a|] eqn:T.
  - destruct (collect seen f (S k) cs) as [b|] eqn:C; [discriminate|]. destruct (IH _ C) as (k' & c' & K1 & K2 & K3). exists k', c'. split; [lia|]. split; [right; exact K2|exact K3].
  - exists k, c. split; [lia|]. split; [left; reflexivity|]. intros j (Hj & F). pose proof (told_none _ _ _ T j Hj F) as P. cbv beta in P. unfold part in P.
    destruct (snd c <=? zlen (iv_ids (seen k j))) eqn:Z; [discriminate|]. lia.
Qed.

(** ** Names *)
Definition has_all (v : inventory) (g : list object_id) : bool := forallb (fun o => existsb (oid_eqb o) (iv_ids v)) g.
Definition texts (g : list object_id) (v : inventory) : option inventory := if has_all v g then Some v else None.
Lemma has_all_in : forall v g, has_all v g = true <-> forall o, In o g -> In o (iv_ids v).
Proof.
  intros v g. unfold has_all. rewrite forallb_forall. split; intros H o Ho; specialize (H o Ho).
  - apply existsb_exists in H. destruct H as (b & Hb & E). apply oid_eqb_eq in E. subst b. exact Hb.
  - apply existsb_exists. exists o. split; [exact H|apply oid_eqb_refl].
Qed.
Lemma has_all_not : forall v g, has_all v g = false -> exists o, In o g /\ ~ In o (iv_ids v).
Proof.
  intros v. induction g as [|a g IH]; intro H; [discriminate|]. cbn [has_all forallb] in H. destruct (existsb (oid_eqb a) (iv_ids v)) eqn:E.
  - destruct (IH H) as (o & Ho & N). exists o. split; [right; exact Ho|exact N].
  - exists a. split; [left; reflexivity|]. intro C. assert (existsb (oid_eqb a) (iv_ids v) = true) as D by (apply existsb_exists; exists a; split; [exact C|apply oid_eqb_refl]). congruence.
Qed.
Lemma snapshot_names : forall (S : Type) (M : machine S) dev s v g, holds M dev s v ->
  snapshot M s (names_request g) = option_map (fun v => map shown_access (names_answer (iv_name v) (iv_desc v) g)) (texts g v).
Proof.
  intros S M dev s v g (_ & _ & H & N). unfold snapshot, texts. destruct (has_all v g) eqn:E; cbn [option_map].
  - rewrite has_all_in in E. unfold names_request, names_answer. rewrite map_map. induction g as [|o g IH]; [reflexivity|]. cbn [map each fst snd].
    destruct (H o (E o (or_introl eq_refl))) as (-> & ->). cbn [option_map]. rewrite IH by (intros p Hp; apply E; right; exact Hp). reflexivity.
  - apply has_all_not in E. destruct E as (o & Ho & Hn). apply (each_none _ _ _ (o, [(77, whole); (28, whole)])).
    + unfold names_request. apply in_map_iff. exists o. auto.
    + cbn [fst snd each]. destruct (N o Hn) as (x & ->). reflexivity.
Qed.
Lemma state_agree : forall name desc name' desc' done ids, (forall o, In o done -> name' o = name o /\ desc' o = desc o) -> state name' desc' done ids = state name desc done ids.
Proof.
  intros. unfold state. apply map_ext. intro o. destruct (mem o done) eqn:E; [|reflexivity]. apply mem_in in E. destruct (H o E) as (-> & ->). reflexivity.
Qed.
Lemma names_answer_agree : forall name desc name' desc' g, (forall o, In o g -> name' o = name o /\ desc' o = desc o) -> names_answer name' desc' g = names_answer name desc g.
Proof. intros. unfold names_answer. apply map_ext_in. intros o Ho. destruct (H o Ho) as (-> & ->). reflexivity. Qed.
Lemma filter_all : forall g, (forall o, In o g -> standard o = true) -> filter standard g = g.
Proof. induction g as [|o g IH]; intro H; [reflexivity|]. cbn [filter]. rewrite (H o (or_introl eq_refl)), IH by (intros p Hp; apply H; right; exact Hp). reflexivity. Qed.
Definition over (g : list object_id) (new old : object_id -> list Z) (o : object_id) : list Z := if mem o g then new o else old o.
Lemma info_call : forall (S : Type) (I : S -> Prop) (M : machine S) fuel e me dev ip port hdr id st seen f name desc ids done objs g, reached dev ip port hdr -> present me = false ->
  machine_ok I M -> (forall k, I (st k)) -> (forall k, holds M (dv_id dev) (st k) (seen k)) ->
  dv_maxapdu dev <= 65531 -> zlen hdr + 4 + 11 * zlen g <= dv_maxapdu dev -> NoDup ids -> (forall k, In k g -> In k ids) -> (forall k, In k g -> ~ In k done) ->
  Forall valid_oid g -> (forall o, In o g -> standard o = true) -> map o_id objs = g ->
  hosts_reads M ip port hdr fuel st (names_request g) f e id ->
  exists tr, match told f (fun j => texts g (seen j)) with
  | Some v => objectInformation fuel e me dev objs (state name desc done ids)
              = (tr, COk (state (over g (iv_name v) name) (over g (iv_desc v) desc) (rev g ++ done) ids))
  | None => exists x, objectInformation fuel e me dev objs (state name desc done ids) = (tr, CErr x)
  end.
Proof.
  intros S I M fuel e me dev ip port hdr id st seen f name desc ids done objs g Hl Hm HM HI HH H1 H2 Hnd Hin Hdis Hv Hst Hg HR.
  unfold objectInformation. rewrite info_keys_eq, Hg, filter_all, info_request_eq by exact Hst.
  assert (HX : reads_ok (names_request g)).
  { unfold reads_ok, names_request. rewrite Forall_map. eapply Forall_impl; [|exact Hv]. intros k Hk. cbn [fst snd]. split; [exact Hk|]. split; [discriminate|]. repeat constructor; cbn; unfold whole; lia. }
  destruct (told_call S I M fuel e me dev ip port hdr id st (names_request g) f Hl Hm HM HI HX H1 ltac:(rewrite names_request_len; lia) HR) as (tr & K).
  rewrite (told_ext _ _ f (fun j => texts g (seen j)) _ (fun v => map shown_access (names_answer (iv_name v) (iv_desc v) g))) in K by (intro j; eapply snapshot_names; apply HH).
  destruct (told f (fun j => texts g (seen j))) as [v|]; cbn [option_map] in K.
  - rewrite K. exists (tr ++ []). cbn [cbind].
    assert (MG : forall o, In o g -> mem o g = true) by (intros o Ho; apply mem_in; exact Ho).
    rewrite <- (names_answer_agree (iv_name v) (iv_desc v) (over g (iv_name v) name) (over g (iv_desc v) desc)) by (intros o Ho; unfold over; rewrite (MG o Ho); auto).
    rewrite <- (state_agree name desc (over g (iv_name v) name) (over g (iv_desc v) desc)).
    2:{ intros o Ho. unfold over. destruct (mem o g) eqn:E; [|auto]. apply mem_in in E. exfalso. exact (Hdis o E Ho). }
    rewrite set_info_ok; [reflexivity|exact Hnd|exact Hin|]. intros j k Hj. cbn [Nat.add]. rewrite nth_error_app1; [exact Hj|]. apply nth_error_Some. congruence.
  - destruct K as (x & K). rewrite K. exists tr. eexists. reflexivity.
Qed.
Lemma infos_call : forall (S : Type) (I : S -> Prop) (M : machine S) fuel envs inv me dev ip port hdr st seen f ids, reached dev ip port hdr -> present me = false ->
  machine_ok I M -> (forall k j, I (st k j)) -> (forall k j, holds M (dv_id dev) (st k j) (seen k j)) ->
  zlen hdr + 59 <= dv_maxapdu dev <= 65531 -> NoDup ids -> forall n k objs g done name desc,
  (forall o, In o g -> In o ids) -> NoDup g -> (forall o, In o g -> ~ In o done) ->
  Forall valid_oid g -> (forall o, In o g -> standard o = true) -> map o_id objs = g -> (length objs <= n)%nat ->
  (forall j x, nth_error (fives n g) j = Some x -> hosts_reads M ip port hdr fuel (st (k + j)%nat) (names_request x) (f (k + j)%nat) (envs (k + j)%nat) (inv (k + j)%nat)) ->
  exists tr,
    ((exists x, all_info n fuel k envs me dev objs (state name desc done ids) = (tr, CErr x))
     /\ exists k', (k <= k')%nat /\ forall j, moment f k' j -> exists o, In o g /\ ~ In o (iv_ids (seen k' j)))
    \/ exists name' desc' done', all_info n fuel k envs me dev objs (state name desc done ids) = (tr, COk (state name' desc' done' ids))
     /\ (forall o, In o done' <-> In o g \/ In o done)
     /\ (forall o, ~ In o g -> name' o = name o /\ desc' o = desc o)
     /\ (forall o, In o g -> exists k' j, (k <= k')%nat /\ moment f k' j /\ In o (iv_ids (seen k' j)) /\ name' o = iv_name (seen k' j) o /\ desc' o = iv_desc (seen k' j) o).
Proof.
  intros S I M fuel envs inv me dev ip port hdr st seen f ids Hl Hm HM HI HH Hmx Hnd. induction n as [|n IH]; intros k objs g done name desc Hin Hng Hdis Hv Hst Hobjs Hlen HR.
  { exists []. right. exists name, desc, done. destruct objs; [|cbn in Hlen; lia]. subst g. split; [reflexivity|]. split; [cbn; tauto|]. split; [auto|intros o []]. }
  destruct objs as [|o0 objs].
  { exists []. right. exists name, desc, done. subst g. split; [reflexivity|]. split; [cbn; tauto|]. split; [auto|intros o []]. }
  cbn [all_info]. remember (o0 :: objs) as os eqn:EO.
  assert (EF : fives (Datatypes.S n) g = firstn 5 g :: fives n (skipn 5 g)) by (rewrite <- Hobjs, EO; reflexivity).
  assert (SPLIT : firstn 5 g ++ skipn 5 g = g) by apply firstn_skipn.
  assert (INF : forall x, In x (firstn 5 g) -> In x g) by (intros x H; rewrite <- SPLIT; apply in_or_app; left; exact H).
  assert (INS : forall x, In x (skipn 5 g) -> In x g) by (intros x H; rewrite <- SPLIT; apply in_or_app; right; exact H).
  assert (APART : forall x, In x (firstn 5 g) -> ~ In x (skipn 5 g)).
  { intros x Hx Hy. rewrite <- SPLIT in Hng. clear - Hng Hx Hy. induction (firstn 5 g) as [|y l IHl]; [contradiction|]. cbn [app] in Hng. apply NoDup_cons_iff in Hng. destruct Hng as [N Hng].
    destruct Hx as [->|Hx]; [apply N; apply in_or_app; right; exact Hy|exact (IHl Hng Hx)]. }
  assert (NS : NoDup (skipn 5 g)). { rewrite <- SPLIT in Hng. clear - Hng. induction (firstn 5 g) as [|y l IHl]; [exact Hng|]. cbn [app] in Hng. apply NoDup_cons_iff in Hng. apply IHl, Hng. }
  pose proof (HR 0%nat (firstn 5 g) ltac:(rewrite EF; reflexivity)) as R0. rewrite Nat.add_0_r in R0.
  assert (FV : Forall valid_oid (firstn 5 g) /\ Forall valid_oid (skipn 5 g)) by (rewrite <- SPLIT in Hv; apply Forall_app in Hv; exact Hv).
  assert (L5 : zlen (firstn 5 g) <= 5) by (unfold zlen; rewrite firstn_length; lia).
  destruct (info_call S I M fuel (envs k) me dev ip port hdr (inv k) (st k) (seen k) (f k) name desc ids done (firstn 5 os) (firstn 5 g) Hl Hm HM (HI k) (HH k)
    ltac:(lia) ltac:(lia) Hnd (fun x H => Hin x (INF x H)) (fun x H => Hdis x (INF x H)) (proj1 FV) (fun x H => Hst x (INF x H)) ltac:(rewrite <- Hobjs; symmetry; apply firstn_map) R0) as (tr & K).
  destruct (told (f k) (fun j => texts (firstn 5 g) (seen k j))) as [v|] eqn:T.
  - apply told_some in T. destruct T as (j0 & Hj0 & F0 & T). unfold texts in T. destruct (has_all (seen k j0) (firstn 5 g)) eqn:HA; [|discriminate]. injection T as <-. rewrite has_all_in in HA.
    rewrite K. cbn [cbind].
    destruct (IH (Datatypes.S k) (skipn 5 os) (skipn 5 g) (rev (firstn 5 g) ++ done) (over (firstn 5 g) (iv_name (seen k j0)) name) (over (firstn 5 g) (iv_desc (seen k j0)) desc)) as (tr' & K').
    + intros x Hx. apply Hin, INS, Hx.
    + exact NS.
    + intros x Hx C. apply in_app_or in C. destruct C as [C|C]; [apply in_rev in C; exact (APART x C Hx)|exact (Hdis x (INS x Hx) C)].
    + apply FV.
    + intros x Hx. apply Hst, INS, Hx.
    + rewrite <- Hobjs. symmetry. apply skipn_map.
    + rewrite EO in *. rewrite skipn_length. cbn [length] in *. lia.
    + intros j x Hj. replace (Datatypes.S k + j)%nat with (k + Datatypes.S j)%nat by lia. apply HR. rewrite EF. exact Hj.
    + exists (tr ++ tr'). destruct K' as [((x & K') & k' & K1 & K2)|(name' & desc' & done' & K' & D1 & D2 & D3)].
      * left. rewrite K'. split; [exists x; reflexivity|]. exists k'. split; [lia|]. intros j Hj. destruct (K2 j Hj) as (o & Ho & No). exists o. split; [exact (INS o Ho)|exact No].
      * right. rewrite K'. exists name', desc', done'. split; [reflexivity|]. split; [|split].
        -- intro o. rewrite D1, in_app_iff, <- in_rev. rewrite <- SPLIT at 3. rewrite in_app_iff. tauto.
        -- intros o Ho. destruct (D2 o (fun C => Ho (INS o C))) as (-> & ->). unfold over. destruct (mem o (firstn 5 g)) eqn:E; [|auto]. apply mem_in in E. exfalso. exact (Ho (INF o E)).
        -- intros o Ho. rewrite <- SPLIT in Ho. apply in_app_or in Ho. destruct Ho as [Ho|Ho].
           ++ destruct (D2 o (APART o Ho)) as (-> & ->). exists k, j0. split; [lia|]. split; [split; assumption|]. split; [exact (HA o Ho)|]. unfold over.
              assert (mem o (firstn 5 g) = true) as -> by (apply mem_in; exact Ho). auto.
           ++ destruct (D3 o Ho) as (k' & j & K1 & K2 & K3 & K4). exists k', j. split; [lia|]. auto.
  - destruct K as (x & K). rewrite K. exists tr. left. split; [eexists; reflexivity|]. exists k. split; [lia|]. intros j (Hj & F).
    pose proof (told_none _ _ _ T j Hj F) as P. cbv beta in P. unfold texts in P. destruct (has_all (seen k j) (firstn 5 g)) eqn:HA; [discriminate|].
    apply has_all_not in HA. destruct HA as (o & Ho & No). exists o. split; [exact (INF o Ho)|exact No].
Qed.

(** ** Objects *)
Lemma entry_in : forall ids i, 1 <= i <= zlen ids -> In (entry ids i) ids.
Proof. intros ids i H. unfold entry. apply nth_In. unfold zlen in *. lia. Qed.
Lemma scan : forall (S : Type) (I : S -> Prop) (M : machine S) fuel order envs inv me dev ip port hdr cs st seen f, reached dev ip port hdr -> present me = false ->
  valid_oid (dv_id dev) -> zlen hdr + 59 <= dv_maxapdu dev <= 65531 -> machine_ok I M -> (forall m, Permutation (order m) m) ->
  (forall k j, I (st k j) /\ holds M (dv_id dev) (st k j) (seen k j) /\ inventory_ok (seen k j)) ->
  chunks (dv_maxapdu dev / readPropRequestSize) (zlen (iv_ids (seen 0%nat 0%nat))) = ROk cs ->
  hosts_scan M ip port hdr fuel (dv_id dev) order cs st seen f envs inv ->
  (exists m, snd (Objects fuel order envs me dev) = COk m /\ faithful seen f m)
  \/ (exists x, snd (Objects fuel order envs me dev) = CErr x) /\ excused seen f.
Proof.
  intros S I M fuel order envs inv me dev ip port hdr cs st seen f Hl Hm Ho Hmx HM Hperm HS Hc (HR0 & HR1 & HR2).
  assert (HI : forall k j, I (st k j)) by (intros; apply HS). assert (HH : forall k j, holds M (dv_id dev) (st k j) (seen k j)) by (intros; apply HS).
  assert (HV : forall k j, inventory_ok (seen k j)) by (intros; apply HS). set (n := zlen (iv_ids (seen 0%nat 0%nat))) in *.
  pose proof (zlen_nonneg (iv_ids (seen 0%nat 0%nat))) as Hn0. fold n in Hn0. destruct (HV 0%nat 0%nat) as (_ & Hnw & _). fold n in Hnw. unfold whole in Hnw.
  destruct (reached_facts _ _ _ _ Hl) as (_ & _ & _ & _ & _ & HZ & _).
  destruct (len_call S I M (envs 0%nat) me dev ip port hdr (inv 0%nat) (st 0%nat 0%nat) (f 0%nat 0%nat) n Hl Hm Ho ltac:(apply (HH 0%nat 0%nat)) ltac:(unfold in_u32; lia) HR0) as (tr0 & K0).
  unfold Objects, objectList. destruct (f 0%nat 0%nat) eqn:F0.
  1-3: destruct K0 as (x & K0); rewrite K0; right; split; [eexists; reflexivity|left; rewrite F0; discriminate].
  rewrite K0. cbn [cbind]. rewrite Hc.
  destruct (chunks_fit (dv_maxapdu dev) n ltac:(lia) ltac:(lia)) as (cs' & Hc' & HP & Hfit). assert (cs' = cs) by congruence. subst cs'. clear Hc'.
  pose proof HP as [HF HFA].
  assert (HC1 : Forall (fun c => 1 <= fst c <= snd c) cs) by (eapply Forall_impl; [|exact HFA]; cbv beta; tauto).
  assert (HC2 : Forall (fun c => 1 <= fst c <= snd c /\ snd c < whole) cs) by (eapply Forall_impl; [|exact HFA]; cbv beta; unfold whole; intros; split; [tauto|lia]).
  destruct (chunks_call S I M fuel envs inv me dev ip port hdr st seen f Hl Hm HM HI HH Ho ltac:(lia) cs 1 []) as (tr1 & K1).
  { intros c Hin id. destruct (Hfit c id (dv_id dev) Hin) as [F1 F2]. specialize (F2 ltac:(lia)). lia. }
  { exact HC2. }
  { exact HR1. }
  change (@nil (object_id * object)) with (bare []).
  destruct (collect seen f 1 cs) as [l|] eqn:EC.
  2:{ destruct K1 as (x & K1). rewrite K1. right. split; [eexists; reflexivity|]. right. destruct (collect_none _ _ _ _ EC) as (k' & c & A1 & A2 & A3).
      exists k'. split; [lia|]. intros j Hj. left. specialize (A3 j Hj). rewrite Forall_forall in HFA. specialize (HFA c A2). fold n. lia. }
  rewrite K1. cbn [cbind]. change (adds [] l) with (distinct l). set (l' := distinct l) in *.
  destruct (collect_some seen f cs 1 l EC HC1) as (C1 & C2).
  assert (EL : forall o, In o l' <-> In o l) by (intro o; unfold l', distinct; rewrite (adds_in l [] o); cbn; tauto).
  assert (NL : NoDup l') by (apply (adds_nodup l []); constructor).
  assert (FI : forall i, In i (flat_map indices cs) <-> 1 <= i <= n) by (intro i; rewrite HF, zseq_in; lia).
  assert (WHERE : forall o, In o l' -> exists k j i, (1 <= k < 1 + length cs)%nat /\ moment f k j /\ 1 <= i <= n /\ i <= zlen (iv_ids (seen k j)) /\ o = entry (iv_ids (seen k j)) i).
  { intros o Hin. apply EL in Hin. destruct (C1 o Hin) as (k & j & i & A1 & A2 & A3 & A4 & A5). exists k, j, i. apply FI in A3. auto. }
  assert (OK : forall o, In o l' -> valid_oid o /\ standard o = true).
  { intros o Hin. destruct (WHERE o Hin) as (k & j & i & _ & _ & A3 & A4 & ->). destruct (HV k j) as (_ & _ & A). rewrite Forall_forall in A.
    destruct (A _ (entry_in (iv_ids (seen k j)) i ltac:(lia))) as (B1 & B2 & _). auto. }
  set (pids := map fst (order (bare l'))) in *.
  assert (HPI : Permutation pids l').
  { unfold pids. rewrite (Hperm (bare l')). unfold bare. rewrite map_map. cbn [fst]. rewrite map_id. reflexivity. }
  assert (INP : forall o, In o pids <-> In o l') by (intro o; split; apply Permutation_in; [exact HPI|apply Permutation_sym; exact HPI]).
  assert (HO : map o_id (map snd (order (bare l'))) = pids).
  { unfold pids. rewrite map_map. apply map_ext_in. intros [k o] Hk. apply (Permutation_in _ (Hperm (bare l'))) in Hk. unfold bare in Hk.
    apply in_map_iff in Hk. destruct Hk as (id & E & _). inversion E. reflexivity. }
  assert (HLo : length (map snd (order (bare l'))) = length l').
  { rewrite map_length, (Permutation_length (Hperm (bare l'))). unfold bare. apply map_length. }
  specialize (HR2 l eq_refl). cbv zeta in HR2. fold l' in HR2. fold pids in HR2.
  destruct (infos_call S I M fuel envs inv me dev ip port hdr st seen f l' Hl Hm HM HI HH Hmx NL (length (map snd (order (bare l')))) (Datatypes.S (length cs))
    (map snd (order (bare l'))) pids [] (fun _ => []) (fun _ => [])) as (tr2 & K2).
  { intros o Hin. apply INP. exact Hin. }
  { apply (Permutation_NoDup (Permutation_sym HPI)). exact NL. }
  { intros o _ []. }
  { apply Forall_forall. intros o Hin. apply INP in Hin. apply OK, Hin. }
  { intros o Hin. apply INP in Hin. apply OK, Hin. }
  { exact HO. }
  { lia. }
  { rewrite HLo. intros j x Hj. exact (HR2 j x Hj). }
  change (state (fun _ : object_id => @nil Z) (fun _ : object_id => @nil Z) [] l') with (bare l') in K2.
  destruct K2 as [((x & K2) & k' & A1 & A2)|(name' & desc' & done' & K2 & D1 & D2 & D3)].
  - rewrite K2. right. split; [eexists; reflexivity|]. right. exists k'. split; [lia|]. intros j Hj. right. destruct (A2 j Hj) as (o & Hin & No).
    apply INP in Hin. destruct (WHERE o Hin) as (k0 & j0 & i & B1 & B2 & B3 & B4 & ->). exists (entry (iv_ids (seen k0 j0)) i), k0, j0. split; [lia|]. split; [exact B2|]. split; [apply entry_in; lia|exact No].
  - rewrite K2. left. eexists. split; [reflexivity|].
    assert (KEYS : map fst (state name' desc' done' l') = l') by (unfold state; rewrite map_map; cbn [fst]; apply map_id).
    split; [rewrite KEYS; exact NL|]. split; [exact F0|]. split.
    + intros o x Hin. unfold state in Hin. apply in_map_iff in Hin. destruct Hin as (o' & E & Hin). injection E as -> <-.
      destruct (WHERE o Hin) as (k & j & i & B1 & B2 & B3 & B4 & B5). apply INP in Hin. destruct (D3 o Hin) as (k' & j' & E1 & E2 & E3 & E4 & E5).
      exists k, j, i, k', j'. split; [lia|]. split; [exact B2|]. split; [exact E2|]. split; [exact B3|]. split; [exact B4|]. split; [exact B5|]. split; [exact E3|].
      assert (mem o done' = true) as -> by (apply mem_in, D1; left; exact Hin). rewrite E4, E5. reflexivity.
    + intros i Hi. apply FI in Hi. destruct (C2 i Hi) as (k & j & E1 & E2 & E3 & E4). exists k, j. split; [exact E1|]. split; [exact E2|]. split; [exact E3|]. rewrite KEYS. apply EL. exact E4.
Qed.

Lemma nodup_fst : forall A B (m : list (A * B)), NoDup (map fst m) -> NoDup m.
Proof.
  induction m as [|[a b] m IH]; intro H; [constructor|]. cbn [map fst] in H. apply NoDup_cons_iff in H. destruct H as [N H]. constructor; [|exact (IH H)].
  intro C. apply N. apply (in_map fst) in C. exact C.
Qed.
Definition whole_list (v : inventory) : list (object_id * object) := map (fun o => (o, mkObj (iv_name v o) (iv_desc v o) o [])) (iv_ids v).
Lemma entry_of : forall ids o, In o ids -> exists i, 1 <= i <= zlen ids /\ entry ids i = o.
Proof.
  intros ids o H. apply (In_nth _ _ (mkOid 0 0)) in H. destruct H as (n & Hn & E). exists (Z.of_nat n + 1). unfold entry, zlen. split; [lia|].
  replace (Z.to_nat (Z.of_nat n + 1 - 1)) with n by lia. exact E.
Qed.
Lemma faithful_still : forall seen f v m, (forall k j, seen k j = v) -> NoDup (iv_ids v) -> faithful seen f m -> Permutation m (whole_list v).
Proof.
  intros seen f v m Hs Hnd (N & _ & A & B). apply NoDup_Permutation.
  - apply nodup_fst. exact N.
  - apply nodup_fst. unfold whole_list. rewrite map_map. cbn [fst]. rewrite map_id. exact Hnd.
  - intros [o x]. split.
    + intro H. destruct (A o x H) as (k & j & i & k' & j' & _ & _ & _ & _ & _ & _ & A7 & A8). rewrite Hs in A7, A8. unfold whole_list. apply in_map_iff. exists o. split; [congruence|exact A7].
    + intro H. unfold whole_list in H. apply in_map_iff in H. destruct H as (o' & E & H). injection E as -> <-.
      destruct (entry_of _ _ H) as (i & Hi & E). destruct (B i) as (k & j & _ & _ & _ & B4); [rewrite Hs; exact Hi|]. rewrite Hs, E in B4.
      apply in_map_iff in B4. destruct B4 as ([o' x] & E' & B4). cbn [fst] in E'. subst o'. destruct (A o x B4) as (? & ? & ? & k' & j' & _ & _ & _ & _ & _ & _ & _ & A8). rewrite Hs in A8. subst x. exact B4.
Qed.
Lemma excused_still : forall seen f v, (forall k j, seen k j = v) -> excused seen f ->
  f O O <> Arrived \/ exists k, (1 <= k)%nat /\ forall j, (j < 2)%nat -> f k j <> Arrived.
Proof.
  intros seen f v Hs [H|(k & Hk & H)]; [left; exact H|]. right. exists k. split; [exact Hk|]. intros j Hj F. destruct (H j (conj Hj F)) as [C|(o & k' & j' & _ & _ & C1 & C2)].
  - rewrite !Hs in C. lia.
  - rewrite Hs in C1, C2. contradiction.
Qed.
Lemma scan_still : forall (S : Type) (I : S -> Prop) (M : machine S) fuel order envs inv me dev ip port hdr cs st v f, reached dev ip port hdr -> present me = false ->
  valid_oid (dv_id dev) -> zlen hdr + 59 <= dv_maxapdu dev <= 65531 -> machine_ok I M -> (forall m, Permutation (order m) m) ->
  (forall k j, I (st k j) /\ holds M (dv_id dev) (st k j) v) -> inventory_ok v ->
  chunks (dv_maxapdu dev / readPropRequestSize) (zlen (iv_ids v)) = ROk cs ->
  hosts_scan M ip port hdr fuel (dv_id dev) order cs st (fun _ _ => v) f envs inv ->
  (exists m, snd (Objects fuel order envs me dev) = COk m /\ Permutation m (map (fun o => (o, mkObj (iv_name v o) (iv_desc v o) o [])) (iv_ids v)))
  \/ (exists x, snd (Objects fuel order envs me dev) = CErr x) /\ (f O O <> Arrived \/ exists k, (1 <= k)%nat /\ forall j, (j < 2)%nat -> f k j <> Arrived).
Proof.
  intros S I M fuel order envs inv me dev ip port hdr cs st v f Hl Hm Ho Hmx HM Hp HS HV Hc HH.
  destruct (scan S I M fuel order envs inv me dev ip port hdr cs st (fun _ _ => v) f Hl Hm Ho Hmx HM Hp) as [(m & E & F)|(E & X)]; try assumption.
  - intros k j. destruct (HS k j) as (A & B). auto.
  - left. exists m. split; [exact E|]. apply (faithful_still (fun _ _ => v) f v m); [reflexivity|apply HV|exact F].
  - right. split; [exact E|]. apply (excused_still (fun _ _ => v) f v); [reflexivity|exact X].
Qed.
Lemma kept_found : forall seen f m o i, faithful seen f m -> 1 <= i <= zlen (iv_ids (seen O O)) -> (forall k j, entry (iv_ids (seen k j)) i = o) -> In o (map fst m).
Proof. intros seen f m o i (_ & _ & _ & B) Hi H. destruct (B i Hi) as (k & j & _ & _ & _ & B4). rewrite H in B4. exact B4. Qed.
Lemma place_found : forall (S : Type) (I : S -> Prop) (M : machine S) fuel order envs inv me dev ip port hdr cs st seen f, reached dev ip port hdr -> present me = false ->
  valid_oid (dv_id dev) -> zlen hdr + 59 <= dv_maxapdu dev <= 65531 -> machine_ok I M -> (forall m, Permutation (order m) m) ->
  (forall k j, I (st k j) /\ holds M (dv_id dev) (st k j) (seen k j) /\ inventory_ok (seen k j)) ->
  chunks (dv_maxapdu dev / readPropRequestSize) (zlen (iv_ids (seen O O))) = ROk cs ->
  hosts_scan M ip port hdr fuel (dv_id dev) order cs st seen f envs inv ->
  forall m o i, snd (Objects fuel order envs me dev) = COk m ->
  1 <= i <= zlen (iv_ids (seen O O)) -> (forall k j, entry (iv_ids (seen k j)) i = o) -> In o (map fst m).
Proof.
  intros S I M fuel order envs inv me dev ip port hdr cs st seen f Hl Hm Ho Hmx HM Hp HS Hc HH m o i E Hi Hk.
  destruct (scan S I M fuel order envs inv me dev ip port hdr cs st seen f Hl Hm Ho Hmx HM Hp HS Hc HH) as [(m' & E' & F)|((x & E') & _)]; [|congruence].
  assert (m' = m) as -> by congruence. exact (kept_found seen f m o i F Hi Hk).
Qed.

(** ** Every course of a scan occurs *)
Lemma catalogue_holds : forall dev v, holds (catalogue dev) dev v v.
Proof.
  intros dev v. unfold holds, catalogue. cbn [m_read]. split; [rewrite oid_eqb_refl; reflexivity|]. split; [|split].
  - intros i Hi. rewrite oid_eqb_refl. cbn [andb Z.eqb]. change (76 =? 76) with true. cbv iota. replace (i =? 0) with false by lia. replace (1 <=? i) with true by lia. cbn [andb].
    destruct (i <=? zlen (iv_ids v)); [reflexivity|eexists; reflexivity].
  - intros o Ho. change (77 =? 76) with false. change (28 =? 76) with false. rewrite !andb_false_r.
    assert (existsb (oid_eqb o) (iv_ids v) = true) as -> by (apply existsb_exists; exists o; split; [exact Ho|apply oid_eqb_refl]). split; reflexivity.
  - intros o Ho. change (77 =? 76) with false. rewrite andb_false_r. destruct (existsb (oid_eqb o) (iv_ids v)) eqn:E; [|eexists; reflexivity].
    apply existsb_exists in E. destruct E as (b & Hb & E). apply oid_eqb_eq in E. subst b. contradiction.
Qed.
Lemma catalogue_ok : forall dev, machine_ok inventory_ok (catalogue dev).
Proof.
  intro dev. split.
  - intros v o p idx (_ & Hz & HF). unfold catalogue. cbn [m_read]. pose proof (zlen_nonneg (iv_ids v)). unfold whole in *. rewrite Forall_forall in HF.
    destruct (oid_eqb o dev && (p =? 76)).
    + destruct (idx =? 0); [constructor; [cbn; unfold in_u32; lia|constructor]|]. destruct ((1 <=? idx) && (idx <=? zlen (iv_ids v))) eqn:E.
      * constructor; [|constructor]. apply (HF _ (entry_in (iv_ids v) idx ltac:(lia))).
      * unfold error_range. cbn. lia.
    + destruct (existsb (oid_eqb o) (iv_ids v)) eqn:E; cbn [andb]; [|unfold error_range; cbn; lia]. apply existsb_exists in E. destruct E as (b & Hb & E). apply oid_eqb_eq in E. subst b.
      destruct (HF o Hb) as (_ & _ & H1 & H2). destruct (idx =? 4294967295); [|unfold error_range; cbn; lia].
      destruct (p =? 77); [constructor; [exact H1|constructor]|]. destruct (p =? 28); [constructor; [exact H2|constructor]|]. unfold error_range. cbn. lia.
  - intros. unfold catalogue. cbn [m_write]. unfold error_range. cbn. lia.
Qed.
Definition answering {S} (M : machine S) (xs : list (object_id * list (Z * Z))) (st : nat -> S) (f : nat -> fate) (id : Z) : env :=
  mkEnv (Some id) (fun k _ => match f k with NotSent => mkAtt false None | RequestLost | AnswerLost => mkAtt true None
            | Arrived => mkAtt true (Some (PBytes (spec_multi_answer M (st k) id xs))) end).
Lemma answering_hosts : forall (S : Type) (M : machine S) ip port hdr fuel st xs f id, is_byte id ->
  (forall k, f k = Arrived -> (length (spec_multi_answer M (st k) id xs) <= fuel)%nat) -> hosts_reads M ip port hdr fuel st xs f (answering M xs st f id) id.
Proof.
  intros S M ip port hdr fuel st xs f id Hb Hfl. unfold answering.
  split; [reflexivity|]. split; [exact Hb|]. cbv zeta. intro k. cbn [ev_att]. specialize (Hfl k). destruct (f k); cbn [at_sent at_reply]; auto.
  split; [reflexivity|]. split; [auto|]. exists (fun _ => true), (mkAddr 0 0 0 [] []), 10, plain_header, (PBytes (spec_multi_answer M (st k) id xs)).
  split; [left; reflexivity|]. split; [exact plain_header_ok|]. split; [reflexivity|]. split; [reflexivity|].
  unfold spec_multi_answer, spec_complex_ack. cbn [app]. rewrite recv_ack; [left; reflexivity|left; reflexivity|exact plain_header_ok|reflexivity|unfold is_byte; lia|right; reflexivity].
Qed.
Definition asks (dev : object_id) (cs : list (Z * Z)) (gs : list (list object_id)) (k : nat) : list (object_id * list (Z * Z)) :=
  if Nat.leb k (length cs) then list_request dev (nth (k - 1) cs (0, 0)) else names_request (nth (k - 1 - length cs) gs []).
Definition scanning {S} (M : machine S) (dev : object_id) (cs : list (Z * Z)) (gs : list (list object_id)) (st : nat -> nat -> S) (f : nat -> nat -> fate) (inv : nat -> Z) (k : nat) : env :=
  match k with
  | O => mkEnv (Some (inv O)) (fun j _ => match f O j with NotSent => mkAtt false None | RequestLost | AnswerLost => mkAtt true None
            | Arrived => mkAtt true (Some (PBytes (snd (react M (inv O) (ORead dev 76 0) (st O O))))) end)
  | _ => answering M (asks dev cs gs k) (st k) (f k) (inv k)
  end.
Lemma enough : forall (S : Type) (M : machine S) dev cs gs st inv n, exists fuel, forall k, (k < n)%nat -> forall j, (j < 2)%nat ->
  (length (spec_multi_answer M (st k j) (inv k : Z) (asks dev cs gs k)) <= fuel)%nat.
Proof.
  intros S M dev cs gs st inv. induction n as [|n (fuel & IH)]; [exists 0%nat; intros; lia|].
  exists (fuel + length (spec_multi_answer M (st n 0%nat) (inv n) (asks dev cs gs n)) + length (spec_multi_answer M (st n 1%nat) (inv n) (asks dev cs gs n)))%nat.
  intros k Hk j Hj. destruct (Nat.eq_dec k n) as [->|N]; [destruct j as [|[|j]]; lia|]. specialize (IH k ltac:(lia) j Hj). lia.
Qed.
Definition groups (order : list (object_id * object) -> list (object_id * object)) (seen : nat -> nat -> inventory) (f : nat -> nat -> fate) (cs : list (Z * Z)) : list (list object_id) :=
  match collect seen f 1 cs with Some l => fives (length (distinct l)) (map fst (order (bare (distinct l)))) | None => [] end.
Lemma scanning_hosts : forall (S : Type) (M : machine S) ip port hdr fuel dev order cs st seen f inv, let gs := groups order seen f cs in
  (forall k, is_byte (inv k)) -> (forall k j, (2 <= j)%nat -> f k j <> Arrived) -> holds M dev (st O O) (seen O O) ->
  (forall k, (k < 1 + length cs + length gs)%nat -> forall j, (j < 2)%nat -> (length (spec_multi_answer M (st k j) (inv k) (asks dev cs gs k)) <= fuel)%nat) ->
  hosts_scan M ip port hdr fuel dev order cs st seen f (scanning M dev cs gs st f inv) inv.
Proof.
  intros S M ip port hdr fuel dev order cs st seen f inv gs Hb Hf H0 HF.
  assert (GO : forall k, (1 <= k < 1 + length cs + length gs)%nat -> hosts_reads M ip port hdr fuel (st k) (asks dev cs gs k) (f k) (scanning M dev cs gs st f inv k) (inv k)).
  { intros k Hk. destruct k as [|k]; [lia|]. apply answering_hosts; [apply Hb|]. intros j F. apply HF; [lia|]. destruct (Nat.lt_ge_cases j 2) as [L|L]; [exact L|]. exfalso. exact (Hf _ _ L F). }
  split; [|split].
  - split; [reflexivity|]. split; [apply Hb|]. cbv zeta. cbn [scanning ev_att]. destruct (f 0%nat 0%nat) eqn:F; cbn [at_sent at_reply]; auto.
    split; [reflexivity|]. destruct H0 as (H0 & _). exists (fun _ => true), (mkAddr 0 0 0 [] []), 10, plain_header, (PBytes (snd (react M (inv 0%nat) (ORead dev 76 0) (st 0%nat 0%nat)))).
    split; [left; reflexivity|]. split; [exact plain_header_ok|]. split; [reflexivity|]. split; [reflexivity|]. cbn [react snd]. rewrite H0.
    unfold spec_read_ack, spec_complex_ack. cbn [app]. rewrite recv_ack; [left; reflexivity|left; reflexivity|exact plain_header_ok|reflexivity|unfold is_byte; lia|right; reflexivity].
  - intros j c Hj. cbv zeta. assert (L : (j < length cs)%nat) by (apply nth_error_Some; congruence). specialize (GO (1 + j)%nat ltac:(lia)).
    unfold asks in GO. replace (Nat.leb (1 + j) (length cs)) with true in GO by (symmetry; apply Nat.leb_le; lia). replace (1 + j - 1)%nat with j in GO by lia.
    rewrite (nth_error_nth cs j (0, 0) Hj) in GO. exact GO.
  - intros l EC. cbv zeta. intros j g Hj. assert (EG : gs = fives (length (distinct l)) (map fst (order (bare (distinct l))))) by (unfold gs, groups; rewrite EC; reflexivity).
    rewrite <- EG in Hj. assert (L : (j < length gs)%nat) by (apply nth_error_Some; congruence). specialize (GO (1 + length cs + j)%nat ltac:(lia)).
    unfold asks in GO. replace (Nat.leb (1 + length cs + j) (length cs)) with false in GO by (symmetry; apply Nat.leb_gt; lia). replace (1 + length cs + j - 1 - length cs)%nat with j in GO by lia.
    rewrite (nth_error_nth gs j [] Hj) in GO. exact GO.
Qed.
Lemma scan_possible : forall (S : Type) (M : machine S) ip port hdr dev order cs st seen f inv,
  (forall k, is_byte (inv k)) -> (forall k j, (2 <= j)%nat -> f k j <> Arrived) -> holds M dev (st O O) (seen O O) ->
  exists fuel envs, hosts_scan M ip port hdr fuel dev order cs st seen f envs inv.
Proof.
  intros S M ip port hdr dev order cs st seen f inv Hb Hf H0.
  destruct (enough S M dev cs (groups order seen f cs) st inv (1 + length cs + length (groups order seen f cs))) as (fuel & HF).
  exists fuel. eexists. apply scanning_hosts; eassumption.
Qed.

(** ** An object put at the front of the list hides the last one *)
Definition stocked (ids : list Z) : inventory := mkInventory (map (mkOid 0) ids) (fun o => [65; 48 + oid_inst o]) (fun o => [66]).
Definition pushed (k j : nat) : inventory := match k with O | 1%nat => stocked [1; 2; 3; 4; 5; 6] | _ => stocked [0; 1; 2; 3; 4; 5; 6] end.
Definition prompt (k j : nat) : fate := match j with O | 1%nat => Arrived | _ => NotSent end.
Lemma stocked_ok : forall ids, NoDup ids -> Forall (fun n => 0 <= n < 60) ids -> zlen ids < 100 -> inventory_ok (stocked ids).
Proof.
  intros ids H F L. unfold inventory_ok, stocked. cbn [iv_ids iv_name iv_desc]. split; [|split].
  - apply FinFun.Injective_map_NoDup; [|exact H]. intros a b E. injection E as E. exact E.
  - unfold zlen in *. rewrite map_length. unfold whole. lia.
  - apply Forall_map. eapply Forall_impl; [|exact F]. intros n Hn. cbv beta in Hn. unfold valid_oid, standard. cbn [oid_type oid_inst].
    split; [lia|]. split; [reflexivity|].
    split; (split; [|vm_compute; reflexivity]); unfold is_bytes, is_byte; cbn [iv_name iv_desc oid_inst]; repeat (constructor; [lia|]); constructor.
Qed.
Lemma pushed_ok : forall k j, inventory_ok (pushed k j).
Proof.
  intros [|[|k]] j; apply stocked_ok; try (vm_compute; reflexivity); try (repeat (constructor; [cbn; lia|]); constructor); repeat (constructor; [lia|]); constructor.
Qed.
Lemma hidden : exists (S : Type) (I : S -> Prop) (M : machine S) fuel order envs inv me dev ip port hdr cs st seen f o, reached dev ip port hdr /\ present me = false
  /\ valid_oid (dv_id dev) /\ zlen hdr + 59 <= dv_maxapdu dev <= 65531 /\ machine_ok I M /\ (forall m, Permutation (order m) m)
  /\ (forall k j, I (st k j) /\ holds M (dv_id dev) (st k j) (seen k j) /\ inventory_ok (seen k j))
  /\ chunks (dv_maxapdu dev / readPropRequestSize) (zlen (iv_ids (seen O O))) = ROk cs
  /\ hosts_scan M ip port hdr fuel (dv_id dev) order cs st seen f envs inv
  /\ (forall k j, In o (iv_ids (seen k j)))
  /\ exists m, snd (Objects fuel order envs me dev) = COk m /\ ~ In o (map fst m).
Proof.
  set (dev := mkOid 8 5). set (M := catalogue dev). set (cs := [(1, 5); (6, 6)]).
  exists inventory, inventory_ok, M, 300%nat, (fun m => m), (scanning M dev cs (groups (fun m => m) pushed prompt cs) pushed prompt (fun _ => 9)), (fun _ => 9), None,
    (mkDev dev 100 (mkAddr 0 0 6 ([192; 168; 1; 20] ++ octets 2 47808) [])), [192; 168; 1; 20], 47808, [1; 4], cs, pushed, pushed, prompt, (mkOid 0 6).
  split; [left; split; [reflexivity|unfold local, is_byte; cbn; repeat split; try lia; try reflexivity]|]. split; [reflexivity|].
  split; [unfold valid_oid; cbn; lia|]. split; [cbn; lia|]. split; [apply catalogue_ok|]. split; [intro m; apply Permutation_refl|].
  split; [intros k j; split; [apply pushed_ok|split; [apply catalogue_holds|apply pushed_ok]]|]. split; [vm_compute; reflexivity|].
  split; [|split].
  - apply scanning_hosts; [intro; unfold is_byte; lia|intros k [|[|j]]; [lia|lia|discriminate]|apply catalogue_holds|].
    intros k Hk j Hj. change (length (groups (fun m => m) pushed prompt cs)) with 1%nat in Hk. change (length cs) with 2%nat in Hk.
    destruct k as [|[|[|[|k]]]]; try lia; destruct j as [|[|j]]; try lia; apply Nat.leb_le; vm_compute; reflexivity.
  - intros [|[|k]] j; cbn; tauto.
  - eexists. split; [vm_compute; reflexivity|]. cbn. intuition discriminate.
Qed.
