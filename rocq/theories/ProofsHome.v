(** Proofs about the home directory: C153. *)
From Coq Require Import Lia ZifyBool ZifyNat.
From Verif Require Import ModelHome SpecHome ProofsCmd.
Ltac Zify.zify_post_hook ::= Z.div_mod_to_equations.

Lemma empty_spec : forall s, is_empty s = true <-> s = [].
Proof. intros [|c s]; split; intros H; try reflexivity; discriminate H. Qed.
Lemma not_empty : forall s, s <> [] -> is_empty s = false.
Proof. intros [|c s] H; [exfalso; apply H; reflexivity|reflexivity]. Qed.
Lemma empty_nil : forall s, s = [] -> is_empty s = true.
Proof. intros s ->. reflexivity. Qed.

(** ** fields *)
Lemma split_first : forall c f r, no c f -> split c (f ++ c :: r) = f :: split c r.
Proof.
  intros c f r. induction f as [|x f IH]; intros N; cbn [app split].
  - rewrite Z.eqb_refl. reflexivity.
  - destruct (x =? c) eqn:E; [exfalso; apply N; left; apply Z.eqb_eq in E; exact E|]. rewrite IH by (intros I; apply N; right; exact I). reflexivity.
Qed.
Lemma split_one : forall c f, no c f -> split c f = [f].
Proof.
  intros c f. induction f as [|x f IH]; intros N; [reflexivity|]. cbn [split].
  destruct (x =? c) eqn:E; [exfalso; apply N; left; apply Z.eqb_eq in E; exact E|]. rewrite IH by (intros I; apply N; right; exact I). reflexivity.
Qed.
Lemma split_some : forall c s, (0 < length (split c s))%nat.
Proof. intros c s. induction s as [|x s IH]; cbn [split]; [cbn; lia|]. destruct (x =? c); [cbn; lia|]. destruct (split c s); cbn; lia. Qed.
Lemma split_slashed : forall ps a, no 47 a -> Forall (no 47) ps -> split 47 (a ++ slashed ps) = a :: ps.
Proof.
  induction ps as [|p ps IH]; intros a N F; cbn [slashed flat_map].
  - rewrite app_nil_r. apply split_one. exact N.
  - inversion_clear F as [|? ? P F']. cbn [app]. rewrite split_first by exact N. f_equal. apply IH; assumption.
Qed.
(** ** trimming *)
Lemma trim_left_colon : forall a r, exists a', trim_left (a ++ 58 :: r) = a' ++ 58 :: r /\ forall c, no c a -> no c a'.
Proof.
  induction a as [|x a IH]; intros r; cbn [app trim_left].
  - change (is_space 58) with false. cbv iota. exists []. split; [reflexivity|]. intros c H. exact H.
  - destruct (is_space x).
    + destruct (IH r) as (a' & E & N). exists a'. split; [exact E|]. intros c H. apply N. intros I. apply H. right. exact I.
    + exists (x :: a). split; [reflexivity|]. intros c H. exact H.
Qed.
Lemma trim_colons : forall a m z, exists a' z', TrimSpace (a ++ 58 :: m ++ 58 :: z) = a' ++ 58 :: m ++ 58 :: z' /\ forall c, no c a -> no c a'.
Proof.
  intros a m z. unfold TrimSpace. destruct (trim_left_colon a (m ++ 58 :: z)) as (a' & -> & N).
  assert (R : rev (a' ++ 58 :: m ++ 58 :: z) = rev z ++ 58 :: rev (a' ++ 58 :: m)).
  { rewrite (app_comm_cons m (58 :: z) 58), (app_assoc a' (58 :: m) (58 :: z)), rev_app_distr. cbn [rev]. rewrite <- app_assoc. reflexivity. }
  rewrite R. destruct (trim_left_colon (rev z) (rev (a' ++ 58 :: m))) as (z' & -> & _). exists a', (rev z'). split; [|exact N].
  rewrite rev_app_distr. cbn [rev]. rewrite rev_involutive, <- !app_assoc. reflexivity.
Qed.
(** ** looking for the directory *)
Lemma home_var_is : forall h, home_var h = match hs_sys h with Plan9 => shome | _ => sHOME end.
Proof. intros h. unfold home_var. destruct (hs_sys h); reflexivity. Qed.
Definition look_home (h : host) : text + home_error := match hs_sys h with Windows => dirWindows h | _ => dirUnix h end.
Lemma dir_forgetful : forall h s, forgetful s -> fst (home_Dir h s) = look_home h.
Proof.
  intros h s F. unfold home_Dir. replace (negb (hc_off s) && negb (is_empty (hc_cache s))) with false.
  - fold (look_home h). destruct (look_home h); reflexivity.
  - destruct F as [-> | ->]; [reflexivity|]. cbn [is_empty negb]. rewrite andb_false_r. reflexivity.
Qed.
Lemma by_variable : forall h s, forgetful s -> var h (home_var h) <> [] -> fst (home_Dir h s) = inl (var h (home_var h)).
Proof.
  intros h s F V. rewrite dir_forgetful by exact F. rewrite home_var_is in *. unfold look_home, dirWindows, dirUnix, var in *.
  destruct (hs_sys h); rewrite (not_empty _ V); reflexivity.
Qed.
Lemma by_passwd : forall h s name pw uid gid gecos dir shell, forgetful s -> hs_sys h = OtherUnix \/ hs_sys h = Plan9 -> var h (home_var h) = [] ->
  Forall (no 58) [name; pw; uid; gid; gecos; dir] -> hs_getent h = RunOk (passwd name pw uid gid gecos dir shell) -> fst (home_Dir h s) = inl dir.
Proof.
  intros h s name pw uid gid gecos dir shell F S V N G. rewrite dir_forgetful by exact F.
  assert (D : dirUnix h = inl dir).
  { unfold dirUnix. cbv zeta. rewrite <- home_var_is. fold (var h (home_var h)). rewrite V. cbn [is_empty negb].
    assert (T : exists name' shell', TrimSpace (passwd name pw uid gid gecos dir shell) = passwd name' pw uid gid gecos dir shell' /\ no 58 name').
    { unfold passwd. destruct (trim_colons name (pw ++ 58 :: uid ++ 58 :: gid ++ 58 :: gecos ++ 58 :: dir) shell) as (a' & z' & E & K).
      exists a', z'. repeat (rewrite <- ?app_assoc in E; rewrite <- ?app_comm_cons in E). split; [exact E|]. apply K. inversion N; assumption. }
    destruct T as (n' & s' & T & N'). inversion N as [|? ? _ N1]. inversion N1 as [|? ? A1 N2]. inversion N2 as [|? ? A2 N3]. inversion N3 as [|? ? A3 N4]. inversion N4 as [|? ? A4 N5]. inversion N5 as [|? ? A5 _].
    assert (P : split 58 (passwd n' pw uid gid gecos dir s') = n' :: pw :: uid :: gid :: gecos :: dir :: split 58 s') by (unfold passwd; rewrite !split_first by assumption; reflexivity).
    assert (X : match hs_getent h with
         | RunOk out => if negb (is_empty (TrimSpace out)) && (5 <? zlen (split 58 (TrimSpace out))) then inl (nth 5 (split 58 (TrimSpace out)) []) else by_shell h
         | _ => inr HCommand end = inl dir).
    { rewrite G, T, P. replace (is_empty (passwd n' pw uid gid gecos dir s')) with false by (unfold passwd; destruct n'; reflexivity).
      cbn [negb andb]. replace (5 <? zlen (n' :: pw :: uid :: gid :: gecos :: dir :: split 58 s')) with true by (unfold zlen; cbn [length]; lia). reflexivity. }
    destruct S as [S|S]; rewrite S; exact X. }
  unfold look_home. destruct S as [S|S]; rewrite S; exact D.
Qed.
Lemma by_windows : forall h s, forgetful s -> hs_sys h = Windows -> var h sHOME = [] ->
  fst (home_Dir h s) = if list_eq_dec Z.eq_dec (var h sUSERPROFILE) [] then
    if list_eq_dec Z.eq_dec (var h sHOMEDRIVE) [] then inr HVariables else if list_eq_dec Z.eq_dec (var h sHOMEPATH) [] then inr HVariables
    else inl (var h sHOMEDRIVE ++ var h sHOMEPATH) else inl (var h sUSERPROFILE).
Proof.
  intros h s F S V. rewrite dir_forgetful by exact F. unfold look_home. rewrite S. unfold dirWindows. fold (var h sHOME) (var h sUSERPROFILE) (var h sHOMEDRIVE) (var h sHOMEPATH). rewrite V. cbn [is_empty negb].
  destruct (var h sUSERPROFILE), (var h sHOMEDRIVE), (var h sHOMEPATH); reflexivity.
Qed.
(** ** the cache *)
Lemma dir_cached : forall h s, hc_off s = false -> hc_cache s <> [] -> home_Dir h s = (inl (hc_cache s), s).
Proof. intros h s O C. unfold home_Dir. rewrite O, (not_empty _ C). reflexivity. Qed.
Lemma expand_cached : forall h p s, hc_off s = false -> hc_cache s <> [] -> snd (home_Expand h p s) = s.
Proof.
  intros h p s O C. unfold home_Expand. destruct p as [|c r]; [reflexivity|]. destruct (negb (c =? 126)); [reflexivity|].
  destruct (match r with x :: _ => _ | [] => false end); [reflexivity|]. rewrite dir_cached by assumption. reflexivity.
Qed.
Lemma calls_cached : forall cs s, hc_off s = false -> hc_cache s <> [] -> Forall keeps cs -> calls cs s = s.
Proof.
  induction cs as [|c cs IH]; intros s O C K; [reflexivity|]. inversion_clear K as [|? ? K1 K2]. cbn [calls].
  assert (E : snd (do_call c s) = s).
  { destruct c as [h|h p| |b]; cbn in K1; try contradiction; cbn [do_call].
    - rewrite dir_cached by assumption. reflexivity.
    - destruct (home_Expand h p s) as [r s'] eqn:X. cbn [snd]. rewrite <- (expand_cached h p s O C), X. reflexivity. }
  rewrite E. apply IH; assumption.
Qed.
Lemma remembered : forall h s d cs h', hc_off s = false -> fst (home_Dir h s) = inl d -> d <> [] -> Forall keeps cs ->
  fst (home_Dir h' (calls cs (snd (home_Dir h s)))) = inl d.
Proof.
  intros h s d cs h' O H D K.
  assert (E : hc_off (snd (home_Dir h s)) = false /\ hc_cache (snd (home_Dir h s)) = d).
  { unfold home_Dir in *. destruct (negb (hc_off s) && negb (is_empty (hc_cache s))); [cbn in *; injection H as <-; split; [exact O|reflexivity]|].
    destruct (match hs_sys h with Windows => dirWindows h | _ => dirUnix h end) as [r|e]; [|discriminate H]. cbn in *. injection H as <-. split; [exact O|reflexivity]. }
  destruct E as [E1 E2]. rewrite calls_cached; [|exact E1|rewrite E2; exact D|exact K]. rewrite dir_cached; [|exact E1|rewrite E2; exact D]. cbn [fst]. rewrite E2. reflexivity.
Qed.
Lemma reset_forgets : forall s, forgetful (home_Reset s).
Proof. intros s. right. reflexivity. Qed.
(** ** paths *)
Lemma eqb_spec : forall a b, text_eqb a b = if list_eq_dec Z.eq_dec a b then true else false.
Proof.
  intros a b. destruct (list_eq_dec Z.eq_dec a b) as [E|N]; [apply text_eqb_eq; exact E|].
  destruct (text_eqb a b) eqn:X; [|reflexivity]. apply text_eqb_eq in X. contradiction.
Qed.
Lemma removelast_rev : forall {A} (x : A) l, removelast (rev (x :: l)) = rev l.
Proof. intros A x l. cbn [rev]. apply removelast_last. Qed.
Lemma clean_walk : forall ps st, Forall name_ok st -> Forall (no 47) ps ->
  clean_loop true st ps = rev (fold_left go ps (rev st)) /\ Forall name_ok (clean_loop true st ps).
Proof.
  induction ps as [|p ps IH]; intros st S N; cbn [clean_loop fold_left]; [rewrite rev_involutive; split; [reflexivity|exact S]|].
  inversion_clear N as [|? ? N1 N2]. unfold go at 2. rewrite !eqb_spec. unfold dotdot.
  destruct (list_eq_dec Z.eq_dec p []) as [->|E0]; [apply IH; assumption|]. rewrite (not_empty _ E0). cbn [orb].
  destruct (list_eq_dec Z.eq_dec p [46]) as [->|E1]; [apply IH; assumption|].
  destruct (list_eq_dec Z.eq_dec p [46; 46]) as [->|E2].
  - destruct st as [|x st]; [apply IH; [constructor|exact N2]|]. inversion_clear S as [|? ? X S']. rewrite !eqb_spec.
    destruct (list_eq_dec Z.eq_dec x [46; 46]) as [Y|_]; [destruct X as (_ & _ & _ & X); contradiction|]. rewrite removelast_rev. apply IH; assumption.
  - change (rev st ++ [p]) with (rev (p :: st)). apply IH; [|exact N2]. constructor; [|exact S]. repeat split; assumption.
Qed.
Lemma join_slashed : forall l, 47 :: join l = from_root l.
Proof.
  intros [|p l]; [reflexivity|]. unfold from_root. revert p. induction l as [|q l IH]; intros p; [cbn; rewrite app_nil_r; reflexivity|].
  change (join (p :: q :: l)) with (p ++ 47 :: join (q :: l)). rewrite IH. reflexivity.
Qed.
Lemma go_nil : forall cur, go cur [] = cur.
Proof. reflexivity. Qed.
Lemma go_names : forall l, Forall name_ok l -> forall cur, fold_left go l cur = cur ++ l.
Proof.
  induction l as [|p l IH]; intros F cur; [rewrite app_nil_r; reflexivity|]. inversion_clear F as [|? ? NO F']. destruct NO as (A & B & C & D). cbn [fold_left].
  assert (G : go cur p = cur ++ [p]) by (unfold go; repeat match goal with |- context [list_eq_dec Z.eq_dec ?a ?b] => destruct (list_eq_dec Z.eq_dec a b); [contradiction|] end; reflexivity).
  rewrite G. rewrite IH by exact F'. rewrite <- app_assoc. reflexivity.
Qed.
Lemma name_no : forall l, Forall name_ok l -> Forall (no 47) l.
Proof. intros l F. eapply Forall_impl; [|exact F]. intros p (_ & H & _). exact H. Qed.
Lemma slashed_app : forall a b, slashed (a ++ b) = slashed a ++ slashed b.
Proof. intros. unfold slashed. apply flat_map_app. Qed.
Lemma clean_slashed : forall ps, ps <> [] -> Forall (no 47) ps -> Clean (slashed ps) = from_root (fold_left go ps []) /\ Forall name_ok (fold_left go ps []).
Proof.
  intros ps P N. destruct ps as [|p ps]; [exfalso; apply P; reflexivity|]. unfold Clean. cbv zeta. set (qs := p :: ps) in *.
  assert (R : match slashed qs with c :: _ => c =? 47 | [] => false end = true) by reflexivity. rewrite R.
  change (slashed qs) with ([] ++ slashed qs). rewrite (split_slashed qs [] ltac:(intros []) N). destruct (clean_walk ([] :: qs) [] ltac:(constructor) ltac:(constructor; [intros []|exact N])) as [E F].
  change (47 :: join (rev (clean_loop true [] ([] :: qs))) = from_root (fold_left go qs []) /\ Forall name_ok (fold_left go qs [])).
  assert (E' : rev (clean_loop true [] ([] :: qs)) = fold_left go qs []) by (etransitivity; [apply f_equal; exact E|rewrite rev_involutive; reflexivity]).
  split; [etransitivity; [apply f_equal, f_equal; exact E'|apply join_slashed]|]. rewrite E in F. apply Forall_rev in F. rewrite rev_involutive in F. exact F.
Qed.
Lemma join_home : forall hs ps, Forall name_ok hs -> Forall (no 47) ps -> Join (from_root hs) (slashed ps) = from_root (fold_left go ps hs) /\ Forall name_ok (fold_left go ps hs).
Proof.
  intros hs ps H N. unfold Join. replace (is_empty (from_root hs)) with false by (destruct hs; reflexivity). cbn [negb].
  assert (E : exists qs, from_root hs ++ 47 :: slashed ps = slashed qs /\ qs <> [] /\ Forall (no 47) qs /\ fold_left go qs [] = fold_left go ps hs).
  { destruct hs as [|x hs].
    - exists ([] :: [] :: ps). split; [reflexivity|]. split; [discriminate|]. split; [repeat constructor; try (intros []); exact N|reflexivity].
    - exists ((x :: hs) ++ [] :: ps). split; [rewrite slashed_app; reflexivity|]. split; [discriminate|]. split; [apply Forall_app; split; [apply name_no; exact H|constructor; [intros []|exact N]]|].
      rewrite fold_left_app, (go_names _ H). reflexivity. }
  destruct E as (qs & -> & Q1 & Q2 & Q3). rewrite <- Q3. apply clean_slashed; assumption.
Qed.
Lemma expands : forall h s hs ps, fst (home_Dir h s) = inl (from_root hs) -> Forall name_ok hs -> Forall (no 47) ps ->
  fst (home_Expand h (126 :: slashed ps) s) = inl (from_root (fold_left go ps hs)) /\ Forall name_ok (fold_left go ps hs).
Proof.
  intros h s hs ps D H N. destruct (join_home hs ps H N) as [J F]. split; [|exact F]. unfold home_Expand. cbn [Z.eqb Pos.eqb negb].
  replace (match slashed ps with x :: _ => negb (x =? 47) && negb (x =? 92) | [] => false end) with false by (destruct ps; reflexivity).
  destruct (home_Dir h s) as [[d|e] s']; cbn [fst] in *; [|discriminate D]. injection D as ->. rewrite J. reflexivity.
Qed.
Lemma untouched : forall h s p, hd 0 p <> 126 -> home_Expand h p s = (inl p, s).
Proof. intros h s [|c p] H; [reflexivity|]. cbn [hd] in H. unfold home_Expand. replace (c =? 126) with false by lia. reflexivity. Qed.
Lemma of_others : forall h s c p, c <> 47 -> c <> 92 -> home_Expand h (126 :: c :: p) s = (inr HUser, s).
Proof. intros h s c p H1 H2. unfold home_Expand. cbn [Z.eqb Pos.eqb negb]. replace (c =? 47) with false by lia. replace (c =? 92) with false by lia. reflexivity. Qed.
(** ** a home directory that is not absolute *)
Lemma repeat_snoc : forall {A} (x : A) n, repeat x n ++ [x] = x :: repeat x n.
Proof. intros A x n. induction n as [|n IH]; [reflexivity|]. cbn [repeat app]. rewrite IH. reflexivity. Qed.
Lemma rev_rep : forall {A} (x : A) n, rev (repeat x n) = repeat x n.
Proof. intros A x n. induction n as [|n IH]; [reflexivity|]. cbn [repeat rev]. rewrite IH. apply repeat_snoc. Qed.
Lemma clean_here : forall ps u ns, Forall name_ok ns -> Forall (no 47) ps ->
  rev (clean_loop false (rev (repeat dotdot u ++ ns)) ps) = repeat dotdot (fst (fold_left go_here ps (u, ns))) ++ snd (fold_left go_here ps (u, ns))
  /\ Forall name_ok (snd (fold_left go_here ps (u, ns))).
Proof.
  induction ps as [|p ps IH]; intros u ns S N; [cbn [clean_loop fold_left fst snd]; rewrite rev_involutive; split; [reflexivity|exact S]|].
  inversion_clear N as [|? ? N1 N2]. cbn [clean_loop fold_left].
  assert (G : go_here (u, ns) p = if list_eq_dec Z.eq_dec p [] then (u, ns) else if list_eq_dec Z.eq_dec p [46] then (u, ns)
    else if list_eq_dec Z.eq_dec p [46; 46] then match ns with [] => (Datatypes.S u, []) | _ => (u, removelast ns) end else (u, ns ++ [p])) by reflexivity.
  rewrite G. clear G. rewrite !eqb_spec. unfold dotdot at 2.
  destruct (list_eq_dec Z.eq_dec p []) as [->|E0]; [apply IH; assumption|]. rewrite (not_empty _ E0). cbn [orb].
  destruct (list_eq_dec Z.eq_dec p [46]) as [->|E1]; [apply IH; assumption|].
  destruct (list_eq_dec Z.eq_dec p [46; 46]) as [->|E2].
  - destruct ns as [|x ns'] using rev_ind.
    + rewrite app_nil_r. rewrite rev_rep. assert (IHu := IH (Datatypes.S u) [] S N2). rewrite app_nil_r, rev_rep in IHu. destruct u as [|u]; [exact IHu|].
      cbn [repeat]. rewrite eqb_spec. destruct (list_eq_dec Z.eq_dec dotdot dotdot) as [_|X]; [exact IHu|exfalso; apply X; reflexivity].
    + clear IHns'. apply Forall_app in S. destruct S as [S1 S2]. inversion_clear S2 as [|? ? X _]. rewrite app_assoc, rev_app_distr. cbn [rev app]. rewrite eqb_spec.
      destruct (list_eq_dec Z.eq_dec x dotdot) as [Y|_]; [destruct X as (_ & _ & _ & X); contradiction|].
      assert (M : match ns' ++ [x] with [] => (Datatypes.S u, []) | _ :: _ => (u, removelast (ns' ++ [x])) end = (u, ns')) by (rewrite removelast_last; destruct ns'; reflexivity).
      rewrite M. apply IH; assumption.
  - assert (R : p :: rev (repeat dotdot u ++ ns) = rev (repeat dotdot u ++ (ns ++ [p]))) by (rewrite app_assoc, (rev_app_distr _ [p]); reflexivity).
    rewrite R. apply IH; [|exact N2]. apply Forall_app. split; [exact S|constructor; [repeat split; assumption|constructor]].
Qed.
Lemma join_cons : forall p l, join (p :: l) = p ++ slashed l.
Proof.
  intros p l. revert p. induction l as [|q l IH]; intros p; [cbn; rewrite app_nil_r; reflexivity|].
  change (join (p :: q :: l)) with (p ++ 47 :: join (q :: l)). rewrite IH. reflexivity.
Qed.
Lemma expands_here : forall h s p hs ps, fst (home_Dir h s) = inl (p ++ slashed hs) -> p <> [] -> Forall (no 47) (p :: hs ++ ps) ->
  fst (home_Expand h (126 :: slashed ps) s) = inl (from_here (fold_left go_here (p :: hs ++ ps) (O, [])))
  /\ Forall name_ok (snd (fold_left go_here (p :: hs ++ ps) (O, []))).
Proof.
  intros h s p hs ps D P N. destruct (clean_here (p :: hs ++ ps) O [] ltac:(constructor) N) as [C F]. split; [|exact F].
  unfold home_Expand. cbn [Z.eqb Pos.eqb negb].
  replace (match slashed ps with x :: _ => negb (x =? 47) && negb (x =? 92) | [] => false end) with false by (destruct ps; reflexivity).
  destruct (home_Dir h s) as [[d|e] s']; cbn [fst] in *; [|discriminate D]. injection D as ->. apply f_equal.
  unfold Join. replace (is_empty (p ++ slashed hs)) with false by (destruct p; [exfalso; apply P; reflexivity|reflexivity]). cbn [negb].
  assert (T : (p ++ slashed hs) ++ 47 :: slashed ps = p ++ slashed (hs ++ [] :: ps)) by (rewrite slashed_app, <- app_assoc; reflexivity).
  assert (N' : Forall (no 47) (hs ++ [] :: ps)).
  { inversion_clear N as [|? ? _ N2]. apply Forall_app in N2. destruct N2 as [N2 N3]. apply Forall_app. split; [exact N2|constructor; [intros []|exact N3]]. }
  assert (N1 : no 47 p) by (inversion_clear N; assumption).
  rewrite T. unfold Clean. cbv zeta. rewrite (split_slashed _ p N1 N').
  assert (R : match p ++ slashed (hs ++ [] :: ps) with c :: _ => c =? 47 | [] => false end = false).
  { destruct p as [|c p]; [exfalso; apply P; reflexivity|]. cbn [app]. destruct (c =? 47) eqn:X; [|reflexivity]. exfalso. apply N1. left. lia. }
  rewrite R.
  destruct (clean_here (p :: hs ++ [] :: ps) O [] ltac:(constructor) ltac:(constructor; assumption)) as [C' _].
  assert (Q : fold_left go_here (p :: hs ++ [] :: ps) (O, []) = fold_left go_here (p :: hs ++ ps) (O, [])) by (cbn [fold_left]; rewrite !fold_left_app; reflexivity).
  rewrite Q in C'. change (rev (repeat dotdot 0 ++ [])) with (@nil text) in C'. unfold from_here.
  set (l := repeat dotdot (fst (fold_left go_here (p :: hs ++ ps) (O, []))) ++ snd (fold_left go_here (p :: hs ++ ps) (O, []))) in *.
  assert (L : (if is_empty (join l) then [46] else join l) = match l with [] => [46] | p :: ps => p ++ slashed ps end).
  { assert (LN : match l with [] => True | q :: _ => q <> [] end).
    { unfold l. destruct (fold_left go_here (p :: hs ++ ps) (O, [])) as [u ns]. cbn [fst snd] in *. destruct u; [|discriminate]. cbn [repeat app]. destruct ns as [|q ns]; [exact I|]. inversion_clear F as [|? ? X _]. apply X. }
    destruct l as [|q l']; [reflexivity|]. rewrite join_cons. destruct q; [exfalso; apply LN; reflexivity|reflexivity]. }
  etransitivity; [|exact L]. rewrite <- C'. reflexivity.
Qed.
(** ** the output of commands *)
Lemma space_spec : forall c, is_space c = true <-> space c.
Proof. intros c. unfold is_space, space. lia. Qed.
Lemma trim_blank : forall a, Forall space a -> forall r, trim_left (a ++ r) = trim_left r.
Proof.
  induction a as [|c a IH]; intros F r; [reflexivity|]. inversion_clear F as [|? ? S F']. apply space_spec in S. cbn [app trim_left]. rewrite S. apply IH. exact F'.
Qed.
Lemma trim_at : forall d r, d <> [] -> ~ space (hd 0 d) -> trim_left (d ++ r) = d ++ r.
Proof. intros [|c d] r N S; [exfalso; apply N; reflexivity|]. cbn [hd app trim_left] in *. destruct (is_space c) eqn:E; [apply space_spec in E; contradiction|reflexivity]. Qed.
Lemma trim_padded : forall d out, padded d out -> TrimSpace out = d.
Proof.
  intros d out (a & b & A & B & -> & N & H & L). unfold TrimSpace. rewrite trim_blank by exact A. rewrite trim_at by assumption.
  rewrite rev_app_distr, trim_blank by (apply Forall_rev; exact B). rewrite <- (app_nil_r (rev d)), trim_at; [rewrite app_nil_r; apply rev_involutive| |].
  - intros E. apply N. apply (f_equal (@rev Z)) in E. rewrite rev_involutive in E. exact E.
  - destruct (exists_last N) as (d' & x & ->). rewrite rev_app_distr. cbn. rewrite last_last in L. exact L.
Qed.
Lemma trim_nothing : forall out, Forall space out -> TrimSpace out = [].
Proof. intros out F. unfold TrimSpace. rewrite <- (app_nil_r out), trim_blank by exact F. reflexivity. Qed.
Lemma by_command : forall h s d out, forgetful s -> hs_sys h <> Windows -> var h (home_var h) = [] -> padded d out ->
  (hs_sys h = Darwin /\ (hs_dscl h = RunOk out \/ (hs_dscl h = RunMissing \/ hs_dscl h = RunFailed \/ blank (hs_dscl h)) /\ hs_shell h = RunOk out))
  \/ (hs_sys h <> Darwin /\ blank (hs_getent h) /\ hs_shell h = RunOk out) -> fst (home_Dir h s) = inl d.
Proof.
  intros h s d out F W V P C. rewrite dir_forgetful by exact F. assert (D : d <> []) by (destruct P as (? & ? & _ & _ & _ & N & _); exact N).
  assert (S : hs_shell h = RunOk out -> by_shell h = inl d) by (intros E; unfold by_shell; rewrite E, (trim_padded _ _ P), (not_empty _ D); reflexivity).
  assert (X : dirUnix h = inl d).
  { unfold dirUnix. cbv zeta. rewrite <- home_var_is. fold (var h (home_var h)). rewrite V. cbn [is_empty negb]. destruct C as [[Y C]|(Y & B & C)].
    - rewrite Y. destruct C as [E|[[E|[E|E]] C]]; try (rewrite E; auto; fail).
      + rewrite E, (trim_padded _ _ P), (not_empty _ D). reflexivity.
      + destruct (hs_dscl h) as [o| |]; try (apply S; exact C). cbn in E. rewrite (trim_nothing _ E). apply S. exact C.
    - destruct (hs_getent h) as [o| |]; try contradiction B. cbn in B. rewrite (trim_nothing _ B). cbn [is_empty negb andb].
      destruct (hs_sys h); try contradiction; apply S; exact C. }
  unfold look_home. destruct (hs_sys h); try exact X. contradiction.
Qed.
