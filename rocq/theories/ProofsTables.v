(** Proofs about the tables handed out, and about counting, listing and printing objects. *)
From Coq Require Import String Permutation Lia ZifyBool ZifyNat.
From Verif Require Import ModelTables SpecNet SpecCmd SpecTables ProofsTypes ProofsCmd.
Close Scope string_scope.
Open Scope list_scope.
Open Scope Z_scope.

(** ** properties *)
Lemma props_stay : forall cs t, tb_props (fold_left tstep cs t) = tb_props t.
Proof. induction cs as [|c cs IH]; intros t; [reflexivity|]. cbn [fold_left]. rewrite IH. destruct c; reflexivity. Qed.
Lemma properties_stay : forall cs s, (forall p, In (s, p) standard_properties -> tb_Get s (trun cs) = (p, true))
  /\ ((forall p, ~ In (s, p) standard_properties) -> tb_Get s (trun cs) = (0, false))
  /\ forall p, In (s, p) (tb_Keys (trun cs)) <-> In (s, p) standard_properties.
Proof.
  intros cs s. unfold tb_Get, tb_Keys, trun. rewrite props_stay. cbn [tables0 tb_props]. split; [|split].
  - intros p H. apply names_same in H. rewrite (names_unique _ _ H). reflexivity.
  - intros N. destruct (mget text_eqb s propertyTypeMapping) as [v|] eqn:E; [|reflexivity]. exfalso. apply (N v). apply names_same. apply ProofsCmd.mget_in. exact E.
  - intros p. apply keys_spec.
Qed.

(** ** services *)
Lemma skey_eq : forall a b, skey_eqb a b = true <-> a = b.
Proof.
  intros [[n1 u1 i1] b1] [[n2 u2 i2] b2]. unfold skey_eqb, svc_eqb. cbn [fst snd sv_name sv_number sv_index]. rewrite !andb_true_iff, text_eqb_eq, !Z.eqb_eq, Bool.eqb_true_iff.
  split; [intros [[[-> ->] ->] ->]; reflexivity|intros E; injection E as -> -> -> ->; repeat split].
Qed.
Lemma skey_if : forall {A} k k' (x y : A), (if skey_eqb k k' then x else y) = if skey_dec k k' then x else y.
Proof.
  intros A k k' x y. destruct (skey_dec k k') as [->|N]; [replace (skey_eqb k' k') with true by (symmetry; apply skey_eq; reflexivity); reflexivity|].
  destruct (skey_eqb k k') eqn:E; [apply skey_eq in E; contradiction|reflexivity].
Qed.
Lemma mget_del : forall {V} k k' (m : list (skey * V)), mget skey_eqb k (filter (fun x => negb (skey_eqb k' (fst x))) m) = if skey_dec k k' then None else mget skey_eqb k m.
Proof.
  intros V k k' m. induction m as [|[a v] m IH]; cbn [filter mget fst]; [destruct (skey_dec k k'); reflexivity|].
  destruct (skey_eqb k' a) eqn:E; cbn [negb].
  - apply skey_eq in E. subst a. rewrite IH, skey_if. destruct (skey_dec k k'); reflexivity.
  - cbn [mget]. rewrite IH, !skey_if. destruct (skey_dec k k') as [->|N]; [|reflexivity]. destruct (skey_dec k' a) as [->|_]; [|reflexivity].
    exfalso. assert (X : skey_eqb a a = true) by (apply skey_eq; reflexivity). congruence.
Qed.
Lemma filter_keys : forall {K V} f (m : list (K * V)), NoDup (map fst m) -> NoDup (map fst (filter f m)).
Proof.
  intros K V f m. induction m as [|x m IH]; intros N; [exact N|]. inversion_clear N as [|? ? A B]. cbn [filter]. destruct (f x); [|apply IH; exact B].
  cbn [map]. constructor; [|apply IH; exact B]. intros C. apply A. apply in_map_iff in C. destruct C as (y & E & Y). apply filter_In in Y. apply in_map_iff. exists y. split; [exact E|apply Y].
Qed.
Lemma step_get : forall c t k, mget skey_eqb k (tb_svcs (tstep t c)) = match done_to k [c] with Some x => x | None => mget skey_eqb k (tb_svcs t) end.
Proof.
  intros [|i e| |e] t k; try reflexivity. cbn [tstep tb_svcs done_to]. destruct e as [k' v|k']; cbn [edit_map].
  - rewrite (mget_mset skey_eqb skey_eq), skey_if. destruct (skey_dec k k'); reflexivity.
  - rewrite mget_del. destruct (skey_dec k k'); reflexivity.
Qed.
Lemma done_cons : forall k c cs, done_to k (c :: cs) = match done_to k cs with Some x => Some x | None => done_to k [c] end.
Proof. intros k c cs. cbn [done_to]. destruct (done_to k cs); reflexivity. Qed.
Lemma run_get : forall cs t k, mget skey_eqb k (tb_svcs (fold_left tstep cs t)) = match done_to k cs with Some x => x | None => mget skey_eqb k (tb_svcs t) end.
Proof.
  induction cs as [|c cs IH]; intros t k; [reflexivity|]. rewrite done_cons. cbn [fold_left]. rewrite IH, step_get. destruct (done_to k cs); [reflexivity|]. destruct (done_to k [c]); reflexivity.
Qed.
Lemma step_nodup : forall c t, NoDup (map fst (tb_svcs t)) -> NoDup (map fst (tb_svcs (tstep t c))).
Proof.
  intros [|i e| |e] t N; try exact N. cbn [tstep tb_svcs]. destruct e as [k v|k]; cbn [edit_map]; [apply (mset_nodup skey_eqb skey_eq); exact N|apply filter_keys; exact N].
Qed.
Lemma services_nodup : NoDup supportedList.
Proof.
  assert (X : (fix nd (l : list service) := match l with [] => true | a :: l' => negb (existsb (svc_eqb a) l') && nd l' end) supportedList = true) by (vm_compute; reflexivity).
  revert X. generalize supportedList. induction l as [|a l IH]; intros X; [constructor|]. apply andb_prop in X. destruct X as [X1 X2]. constructor; [|apply IH; exact X2].
  intros C. apply negb_true_iff in X1. assert (E : existsb (svc_eqb a) l = true); [|congruence]. apply existsb_exists. exists a. split; [exact C|].
  unfold svc_eqb. rewrite text_eqb_refl, !Z.eqb_refl. reflexivity.
Qed.
Lemma table_nodup : NoDup (map fst serviceTable).
Proof.
  unfold serviceTable. rewrite map_map. cbn [fst]. assert (X := services_nodup). revert X. generalize supportedList. induction l as [|a l IH]; intros N; [constructor|].
  inversion_clear N as [|? ? A B]. cbn [map]. constructor; [|apply IH; exact B]. intros C. apply in_map_iff in C. destruct C as (y & E & Y). injection E as ->. contradiction.
Qed.
Lemma run_nodup : forall cs t, NoDup (map fst (tb_svcs t)) -> NoDup (map fst (tb_svcs (fold_left tstep cs t))).
Proof. induction cs as [|c cs IH]; intros t N; [exact N|]. cbn [fold_left]. apply IH, step_nodup, N. Qed.
Lemma own_listed : forall k s, own_name k s <-> snd k = false /\ In (fst k) supportedList /\ sv_name (fst k) = s.
Proof.
  assert (X : forallb (fun x => (0 <=? sv_index x) && match nth_error standard_services (Z.to_nat (sv_index x)) with Some y => text_eqb (fst y) (sv_name x) && (snd y =? sv_number x) | None => false end) supportedList = true) by (vm_compute; reflexivity).
  assert (Y : forallb (fun n => match nth_error supportedList n with Some x => sv_index x =? Z.of_nat n | None => false end) (seq 0 38) = true) by (vm_compute; reflexivity).
  intros [x b] s. unfold own_name. cbn [fst snd]. split; intros (B & H).
  - destruct H as (E & L & N). split; [exact B|]. split; [|exact E]. rewrite <- svc_table in N.
    assert (Ln : (Z.to_nat (sv_index x) < 38)%nat) by (change 38%nat with (length (map (fun x => (sv_name x, sv_number x)) supportedList)); apply nth_error_Some; rewrite N; discriminate).
    rewrite nth_error_map in N. rewrite forallb_forall in Y. specialize (Y (Z.to_nat (sv_index x)) ltac:(apply in_seq; lia)).
    destruct (nth_error supportedList (Z.to_nat (sv_index x))) as [y|] eqn:F; [|discriminate]. cbn [option_map] in N. injection N as N1 N2.
    apply nth_error_In in F. replace x with y; [exact F|]. destruct x as [n u i], y as [n' u' i']. cbn [sv_name sv_number sv_index] in *. f_equal; [congruence|congruence|lia].
  - destruct H as (I & E). split; [exact B|]. split; [exact E|]. rewrite forallb_forall in X. specialize (X x I). apply andb_prop in X. destruct X as [X1 X2]. split; [lia|].
    destruct (nth_error standard_services (Z.to_nat (sv_index x))) as [[n u]|]; [|discriminate]. apply andb_prop in X2. destruct X2 as [X2 X3]. cbn [fst snd] in *. apply text_eqb_eq in X2. apply Z.eqb_eq in X3. congruence.
Qed.
Lemma table_own : forall k s, mget skey_eqb k serviceTable = Some s <-> own_name k s.
Proof.
  intros [x b] s. rewrite own_listed. rewrite (ProofsTypes.mget_in skey_eqb skey_eq) by apply table_nodup. unfold serviceTable. cbn [fst snd]. rewrite in_map_iff. split.
  - intros (y & E & Y). injection E as -> <- <-. repeat split. exact Y.
  - intros (-> & I & <-). exists x. split; [reflexivity|exact I].
Qed.
Lemma run_named : forall cs k s, mget skey_eqb k (tb_svcs (trun cs)) = Some s <-> named cs k s.
Proof. intros cs k s. unfold trun, named. rewrite run_get. destruct (done_to k cs); [reflexivity|]. apply table_own. Qed.
Lemma strings_exact : forall cs k, (forall s, named cs k s -> tb_GetString k (trun cs) = s)
  /\ ((forall s, ~ named cs k s) -> tb_GetString k (trun cs) = txt "Unknown ("%string ++ sv_name (fst k) ++ txt ")"%string).
Proof.
  intros cs k. unfold tb_GetString. split.
  - intros s N. apply run_named in N. rewrite N. reflexivity.
  - intros N. destruct (mget skey_eqb k (tb_svcs (trun cs))) as [s|] eqn:E; [|reflexivity]. apply run_named in E. exfalso. apply (N s E).
Qed.
Lemma types_exact : forall cs order s, Permutation (tb_svcs (trun cs)) order ->
  match tb_GetType order s with Some k => named cs k s | None => forall k, ~ named cs k s end.
Proof.
  intros cs order s P. assert (D : NoDup (map fst (tb_svcs (trun cs)))) by apply (run_nodup cs tables0 table_nodup). unfold tb_GetType.
  destruct (find _ order) as [[k v]|] eqn:E.
  - apply find_some in E. destruct E as [I E]. cbn [fst snd] in *. apply text_eqb_eq in E. subst v. apply run_named. apply (ProofsTypes.mget_in skey_eqb skey_eq); [exact D|].
    apply (Permutation_in _ (Permutation_sym P) I).
  - intros k N. apply run_named in N. apply (ProofsTypes.mget_in skey_eqb skey_eq) in N; [|exact D]. apply (Permutation_in _ P) in N.
    assert (X := find_none _ _ E _ N). cbn [snd] in X. rewrite text_eqb_refl in X. discriminate X.
Qed.
Lemma looks_nothing : forall cs k, Forall looks cs -> done_to k cs = None.
Proof.
  induction cs as [|c cs IH]; intros k F; [reflexivity|]. inversion_clear F as [|? ? L F']. rewrite done_cons, IH by exact F'. destruct c; cbn in L; try contradiction; reflexivity.
Qed.
Lemma looking : forall cs order s bit, Forall looks cs -> Permutation (tb_svcs (trun cs)) order -> In (s, bit) standard_services ->
  exists x, tb_GetType order s = Some (x, false) /\ sv_number x = bit /\ tb_GetString (x, false) (trun cs) = s.
Proof.
  intros cs order s bit L P H. rewrite <- svc_table in H. apply in_map_iff in H. destruct H as (x & E & Hx). injection E as E1 E2. exists x.
  assert (N : forall k v, named cs k v <-> own_name k v) by (intros k v; unfold named; rewrite looks_nothing by exact L; reflexivity).
  assert (O : own_name (x, false) s) by (apply own_listed; repeat split; assumption). assert (T := types_exact cs order s P).
  destruct (tb_GetType order s) as [[y b]|]; [|exfalso; apply (T (x, false)); apply N; exact O]. apply N, own_listed in T. destruct T as (B & Y & S). cbn [fst snd] in *.
  assert (X : y = x) by (apply svc_unique; congruence). subst y b. split; [reflexivity|]. split; [exact E2|]. apply (proj1 (strings_exact cs (x, false))), N, O.
Qed.
Lemma marked : forall s bit, In (s, bit) standard_services -> exists x, tb_GetType serviceTable s = Some (x, false)
  /\ forall cs, Forall looks cs -> tb_GetString (x, true) (trun cs) = txt "Unknown ("%string ++ s ++ txt ")"%string.
Proof.
  intros s bit H. destruct (looking [] serviceTable s bit ltac:(constructor) (Permutation_refl _) H) as (x & T & _ & G). exists x. split; [exact T|]. intros cs L.
  assert (TN := types_exact [] serviceTable s (Permutation_refl _)). rewrite T in TN. apply own_listed in TN. destruct TN as (_ & _ & E). cbn [fst] in E.
  rewrite (proj2 (strings_exact cs (x, true))); [cbn [fst]; rewrite E; reflexivity|]. intros v N. unfold named in N. rewrite looks_nothing in N by exact L. destruct N as (N & _). discriminate N.
Qed.

(** ** objects *)
Lemma len_inner : forall {A} (l : list A) c, fold_left (fun c _ => c + 1) l c = c + zlen l.
Proof. intros A l. induction l as [|x l IH]; intros c; cbn [fold_left]; [unfold zlen; cbn; lia|]. rewrite IH. unfold zlen. cbn [length]. lia. Qed.
Definition all_ids (om : objectMap) : list (Z * Z) := flat_map (fun x => map (fun y => (fst x, fst y)) (snd x)) om.
Lemma len_ids : forall om c, fold_left (fun c x => fold_left (fun c (_ : Z * object) => c + 1) (snd x) c) om c = c + zlen (all_ids om).
Proof.
  induction om as [|x om IH]; intros c; [unfold zlen; cbn; lia|]. cbn [fold_left all_ids flat_map]. rewrite IH, len_inner. unfold zlen. rewrite app_length, map_length. unfold all_ids. lia.
Qed.
Lemma slice_inner : forall (s : list (Z * object)) l, fold_left (fun l y => l ++ [snd y]) s l = l ++ map snd s.
Proof. induction s as [|y s IH]; intros l; cbn [fold_left map]; [rewrite app_nil_r; reflexivity|]. rewrite IH, <- app_assoc. reflexivity. Qed.
Lemma slice_all : forall (om : objectMap) l, fold_left (fun l x => fold_left (fun l y => l ++ [snd y]) (snd x) l) om l = l ++ flat_map (fun x => map snd (snd x)) om.
Proof. induction om as [|x om IH]; intros l; cbn [fold_left flat_map]; [rewrite app_nil_r; reflexivity|]. rewrite IH, slice_inner, <- app_assoc. reflexivity. Qed.
Lemma in_ids : forall om t i, wf_map om -> (In (t, i) (all_ids om) <-> obj_at om t i <> None).
Proof.
  intros om t i [N I]. unfold all_ids. rewrite in_flat_map. split.
  - intros ([t' s] & X & Y). cbn [fst snd] in Y. apply in_map_iff in Y. destruct Y as ([i' o] & E & Y). cbn [fst] in E. injection E as -> ->. unfold obj_at.
    rewrite (proj2 (ProofsTypes.mget_in Z.eqb Z.eqb_eq _ _ _ N) X). rewrite Forall_forall in I. assert (J := I _ X). cbn [snd] in J. rewrite (proj2 (ProofsTypes.mget_in Z.eqb Z.eqb_eq _ _ _ J) Y). discriminate.
  - unfold obj_at. intros H. destruct (mget Z.eqb t om) as [s|] eqn:E; [|contradiction]. destruct (mget Z.eqb i s) as [o|] eqn:F; [|contradiction].
    apply (ProofsTypes.mget_in Z.eqb Z.eqb_eq _ _ _ N) in E. rewrite Forall_forall in I. assert (J := I _ E). cbn [snd] in J. apply (ProofsTypes.mget_in Z.eqb Z.eqb_eq _ _ _ J) in F.
    exists (t, s). split; [exact E|]. cbn [fst snd]. apply in_map_iff. exists (i, o). split; [reflexivity|exact F].
Qed.
Lemma nodup_pairs : forall (t : Z) (s : list (Z * object)), NoDup (map fst s) -> NoDup (map (fun y => (t, fst y)) s).
Proof.
  intros t s. induction s as [|y s IH]; intros N; [constructor|]. inversion_clear N as [|? ? A B]. cbn [map]. constructor; [|apply IH; exact B].
  intros C. apply A. apply in_map_iff in C. destruct C as (z & E & Z). injection E as E. apply in_map_iff. exists z. split; assumption.
Qed.
Lemma nodup_app2 : forall {A} (a b : list A), NoDup a -> NoDup b -> (forall x, In x a -> ~ In x b) -> NoDup (a ++ b).
Proof.
  intros A a b. induction a as [|x a IH]; intros Na Nb D; [exact Nb|]. inversion_clear Na as [|? ? X Y]. cbn [app]. constructor.
  - intros C. apply in_app_or in C. destruct C as [C|C]; [contradiction|]. apply (D x (or_introl eq_refl) C).
  - apply IH; [exact Y|exact Nb|]. intros z Hz. apply D. right. exact Hz.
Qed.
Lemma nodup_ids : forall om, wf_map om -> NoDup (all_ids om).
Proof.
  intros om [N I]. induction om as [|[t s] om IH]; [constructor|]. inversion_clear N as [|? ? A B]. inversion_clear I as [|? ? C D]. cbn [all_ids flat_map fst snd] in *.
  apply nodup_app2; [apply nodup_pairs; exact C|apply IH; assumption|]. intros [t' i'] X Y. apply in_map_iff in X. destruct X as (y & E & _). injection E as <- _.
  apply A. unfold all_ids in Y. apply in_flat_map in Y. destruct Y as ([t'' s''] & Z & W). apply in_map_iff in W. destruct W as (w & E & _). cbn [fst] in E. injection E as -> _. apply in_map_iff. exists (t, s''). split; [reflexivity|exact Z].
Qed.
Lemma slice_ids : forall (big om : objectMap), wf_map big -> (forall x, In x om -> In x big) ->
  Forall2 (fun id o => obj_at big (fst id) (snd id) = Some o) (all_ids om) (flat_map (fun x => map snd (snd x)) om).
Proof.
  intros big om [N I] Sub. induction om as [|[t s] om IH]; [constructor|]. cbn [all_ids flat_map fst snd]. apply Forall2_app; [|apply IH; intros x X; apply Sub; right; exact X].
  assert (X : In (t, s) big) by (apply Sub; left; reflexivity). rewrite Forall_forall in I. assert (J := I _ X). cbn [snd] in J.
  assert (G : forall l, (forall y, In y l -> In y s) -> Forall2 (fun id o => obj_at big (fst id) (snd id) = Some o) (map (fun y : Z * object => (t, fst y)) l) (map snd l)).
  { induction l as [|[i o] l IHl]; intros L; [constructor|]. cbn [map fst snd]. constructor; [|apply IHl; intros y Y; apply L; right; exact Y]. cbn [fst snd]. unfold obj_at.
    rewrite (proj2 (ProofsTypes.mget_in Z.eqb Z.eqb_eq _ _ _ N) X). apply (ProofsTypes.mget_in Z.eqb Z.eqb_eq _ _ _ J). apply L. left. reflexivity. }
  apply G. intros y Y. exact Y.
Qed.
Lemma count_and_list : forall om, wf_map om -> exists ids, NoDup ids /\ (forall t i, In (t, i) ids <-> obj_at om t i <> None)
  /\ om_Len om = zlen ids /\ Forall2 (fun id o => obj_at om (fst id) (snd id) = Some o) ids (ObjectSlice om).
Proof.
  intros om W. exists (all_ids om). split; [apply nodup_ids; exact W|]. split; [intros t i; apply in_ids; exact W|]. split; [unfold om_Len; rewrite len_ids; lia|].
  unfold ObjectSlice. rewrite slice_all. cbn [app]. apply slice_ids; [exact W|intros x X; exact X].
Qed.
Lemma put_ok : forall t i o om, wf_map om -> wf_map (om_put t i o om) /\ forall t' i', obj_at (om_put t i o om) t' i' = if (t' =? t) && (i' =? i) then Some o else obj_at om t' i'.
Proof.
  intros t i o om W. unfold om_put. split.
  - apply (mset_grouped Z.eqb Z.eqb_eq om t _ W). apply (mset_nodup Z.eqb Z.eqb_eq). destruct (mget Z.eqb t om) as [s|] eqn:E; [|constructor]. apply (grouped_get Z.eqb Z.eqb_eq om t s W E).
  - intros t' i'. unfold obj_at. rewrite (mget_mset Z.eqb Z.eqb_eq). destruct (t' =? t) eqn:E; [|reflexivity]. apply Z.eqb_eq in E. subst t'. rewrite (mget_mset Z.eqb Z.eqb_eq). cbn [andb].
    destruct (i' =? i); [reflexivity|]. destruct (mget Z.eqb t om); reflexivity.
Qed.
Lemma puts_from : forall ps om, wf_map om -> wf_map (fold_left (fun om p => om_put (fst (fst p)) (snd (fst p)) (snd p) om) ps om)
  /\ forall t i, obj_at (fold_left (fun om p => om_put (fst (fst p)) (snd (fst p)) (snd p) om) ps om) t i = match last_put ps t i with Some o => Some o | None => obj_at om t i end.
Proof.
  induction ps as [|[[t0 i0] o] ps IH]; intros om W; [split; [exact W|reflexivity]|]. cbn [fold_left fst snd last_put]. destruct (put_ok t0 i0 o om W) as [W' G]. destruct (IH _ W') as [A B].
  split; [exact A|]. intros t i. rewrite B, G. destruct (last_put ps t i); [reflexivity|]. destruct ((t =? t0) && (i =? i0)); reflexivity.
Qed.
Lemma same_ok : forall a b, wf_map a -> same_map a b -> wf_map b /\ forall t i, obj_at a t i = obj_at b t i.
Proof.
  intros a b [N I] (c & P & F). assert (Nc : NoDup (map fst c)) by (apply (Permutation_NoDup (Permutation_map fst P) N)).
  assert (Ic : Forall (fun x => NoDup (map fst (snd x))) c) by (rewrite Forall_forall in *; intros x X; apply I; apply (Permutation_in _ (Permutation_sym P) X)).
  assert (G : wf_map b /\ map fst c = map fst b /\ forall t i, obj_at c t i = obj_at b t i).
  { clear P N I a. induction F as [|[t s] [t' s'] c b [E Q] F IH]; [repeat split; constructor|]. cbn [fst snd] in *. subst t'. inversion_clear Nc as [|? ? A B]. inversion_clear Ic as [|? ? C D].
    destruct (IH B D) as ([W1 W2] & K & G). cbn [snd] in C. split; [split|split].
    - cbn [map fst]. constructor; [rewrite <- K; exact A|exact W1].
    - constructor; [cbn [snd]; apply (Permutation_NoDup (Permutation_map fst Q) C)|exact W2].
    - cbn [map fst]. rewrite K. reflexivity.
    - intros u i. specialize (G u i). unfold obj_at in *. cbn [mget]. destruct (u =? t); [apply (mget_perm Z.eqb Z.eqb_eq); [exact C|exact Q]|exact G]. }
  destruct G as (W & _ & G). split; [exact W|]. intros t i. rewrite <- G. unfold obj_at. rewrite (mget_perm Z.eqb Z.eqb_eq t a c N P). reflexivity.
Qed.
Lemma puts : forall ps om, same_map (all_put ps) om -> wf_map om /\ forall t i, obj_at om t i = last_put ps t i.
Proof.
  intros ps om S. destruct (puts_from ps [] ltac:(split; constructor)) as [W G]. destruct (same_ok _ _ W S) as [W' E]. split; [exact W'|]. intros t i. rewrite <- E. unfold all_put. rewrite G.
  destruct (last_put ps t i); reflexivity.
Qed.
(** ** printed identifiers *)
Lemma cut_at : forall (c : Z) a b x y, ~ In c a -> ~ In c b -> a ++ c :: x = b ++ c :: y -> a = b /\ x = y.
Proof.
  intros c a. induction a as [|u a IH]; intros b x y A B E; destruct b as [|v b]; cbn [app] in E.
  - injection E as ->. split; reflexivity.
  - injection E as -> _. exfalso. apply B. left. reflexivity.
  - injection E as -> _. exfalso. apply A. left. reflexivity.
  - injection E as -> E. destruct (IH b x y) as [-> ->]; [intros C; apply A; right; exact C|intros C; apply B; right; exact C|exact E|]. split; reflexivity.
Qed.
Lemma sprint_plain : forall n, 0 <= n -> sprint_d n = digits n.
Proof. intros n H. unfold sprint_d. replace (n <? 0) with false by lia. reflexivity. Qed.
Lemma sprint_inj : forall a b, 0 <= a -> 0 <= b -> sprint_d a = sprint_d b -> a = b.
Proof. intros a b A B E. rewrite !sprint_plain in E by assumption. rewrite <- (number_digits a A), <- (number_digits b B), E. reflexivity. Qed.
Lemma sprint_no : forall n, 0 <= n -> ~ In 32 (sprint_d n).
Proof.
  intros n H C. rewrite sprint_plain in C by exact H. unfold digits in C. assert (D := digits_digit (S (Z.to_nat (Z.log2 n))) n H). rewrite forallb_forall in D. specialize (D _ C). discriminate D.
Qed.
Lemma type_inj : forall a b, 0 <= a -> 0 <= b -> type_string a = type_string b -> a = b.
Proof.
  intros a b A B E. destruct (known_or_not b) as [K|K]; [apply string_known; assumption|]. destruct (known_or_not a) as [L|L]; [symmetry; apply string_known; [exact L|symmetry; exact E]|].
  rewrite !unknown_string in E by assumption. apply app_inv_head in E. apply app_inv_tail in E. apply sprint_inj; assumption.
Qed.
Lemma texts_apart : forall a b, 0 <= oid_inst a -> 0 <= oid_type a -> 0 <= oid_inst b -> 0 <= oid_type b -> oid_String a = oid_String b -> a = b.
Proof.
  intros [t i] [t' i'] A B C D E. unfold oid_String in E. cbn [oid_inst oid_type] in *. apply app_inv_head in E.
  change (txt " Type: "%string) with (32 :: txt "Type: "%string) in E. cbn [app] in E. destruct (cut_at 32 _ _ _ _ (sprint_no _ A) (sprint_no _ C) E) as [E1 E2].
  apply sprint_inj in E1; [|exact A|exact C]. apply (app_inv_head (txt "Type: "%string)) in E2. apply type_inj in E2; [|exact B|exact D]. subst. reflexivity.
Qed.
Lemma shared : exists e s bit x, In (s, bit) standard_services /\ tb_GetType (tb_svcs (trun [])) s = Some x /\ tb_GetString x (trun []) = s
  /\ tb_GetType (tb_svcs (trun [TListAll; TEditListed e])) s = None /\ tb_GetString x (trun [TListAll; TEditListed e]) = txt "Unknown ("%string ++ s ++ txt ")"%string.
Proof.
  pose (x := (nth 12 supportedList (mkService [] 0 0), false)). exists (MDelete x), (sv_name (fst x)), (sv_number (fst x)), x. split; [vm_compute; tauto|]. vm_compute. repeat split.
Qed.
