(** Proofs about the text of a reading. *)
From Coq Require Import String Permutation Lia ZifyBool ZifyNat.
From Verif Require Import ModelReading SpecNet SpecCmd SpecReading ProofsTypes ProofsCmd ProofsNames ProofsTables.
Close Scope string_scope.
Open Scope list_scope.
Open Scope Z_scope.

Lemma sprint_no_char : forall c n, 0 <= n -> is_digit c = false -> ~ In c (sprint_d n).
Proof.
  intros c n H X C. rewrite sprint_plain in C by exact H. unfold digits in C. assert (D := digits_digit (S (Z.to_nat (Z.log2 n))) n H). rewrite forallb_forall in D. specialize (D _ C). congruence.
Qed.
Lemma no_char : forall c l, forallb (fun x => negb (x =? c)) l = true -> ~ In c l.
Proof. intros c l H C. rewrite forallb_forall in H. specialize (H _ C). rewrite Z.eqb_refl in H. discriminate. Qed.
Lemma named_or : forall p, (In p (map fst propertybtypestrMapping) /\ has_name p) \/ (prop_String p = txt "Unknown"%string /\ ~ has_name p).
Proof.
  intros p. destruct (list_eq_dec Z.eq_dec (prop_String p) (txt "Unknown"%string)) as [E|N].
  - right. split; [exact E|]. apply string_spec, E.
  - left. unfold prop_String in N. destruct (mget Z.eqb p propertybtypestrMapping) as [s|] eqn:E; [|contradiction N; reflexivity].
    assert (I : In p (map fst propertybtypestrMapping)) by (apply ProofsCmd.mget_in in E || (apply (ProofsTypes.mget_in Z.eqb Z.eqb_eq) in E; [|vm_compute; repeat constructor; cbn; intuition discriminate]); apply in_map_iff; exists (p, s); split; [reflexivity|exact E]).
    split; [exact I|]. assert (Y : forallb (fun q => existsb (fun x => snd x =? q) standard_properties) (map fst propertybtypestrMapping) = true) by (vm_compute; reflexivity).
    rewrite forallb_forall in Y. specialize (Y _ I). apply existsb_exists in Y. destruct Y as ([n q] & A & B). apply Z.eqb_eq in B. cbn [snd] in B. subst q. exists n. exact A.
Qed.
Lemma prop_no : forall p, ~ In 91 (prop_String p).
Proof.
  intros p. destruct (named_or p) as [[I _]|[E _]]; [|rewrite E; apply no_char; vm_compute; reflexivity].
  assert (Y : forallb (fun q => forallb (fun x => negb (x =? 91)) (prop_String q)) (map fst propertybtypestrMapping) = true) by (vm_compute; reflexivity).
  rewrite forallb_forall in Y. apply no_char, Y, I.
Qed.
Lemma prop_alike : forall p q, prop_String p = prop_String q <-> same_or_unnamed p q.
Proof.
  intros p q. unfold same_or_unnamed. split.
  - intros E. destruct (named_or p) as [[I N]|[U N]], (named_or q) as [[J M]|[V M]].
    + left. assert (Y : forallb (fun a => forallb (fun b => if text_eqb (prop_String a) (prop_String b) then a =? b else true) (map fst propertybtypestrMapping)) (map fst propertybtypestrMapping) = true) by (vm_compute; reflexivity).
      rewrite forallb_forall in Y. specialize (Y _ I). rewrite forallb_forall in Y. specialize (Y _ J). rewrite E, text_eqb_refl in Y. lia.
    + exfalso. apply (proj1 (string_spec p)); [congruence|exact N].
    + exfalso. apply (proj1 (string_spec q)); [congruence|exact M].
    + right. split; assumption.
  - intros [->|[N M]]; [reflexivity|]. apply string_spec in N. apply string_spec in M. congruence.
Qed.
Lemma oid_no : forall o, 0 <= oid_inst o -> 0 <= oid_type o -> ~ In 10 (oid_String o).
Proof.
  intros o A B C. unfold oid_String in C. rewrite !in_app_iff in C. destruct C as [C|[C|[C|C]]].
  - revert C. apply no_char. vm_compute. reflexivity.
  - revert C. apply sprint_no_char; [exact A|reflexivity].
  - revert C. apply no_char. vm_compute. reflexivity.
  - revert C. destruct (known_or_not (oid_type o)) as [K|K].
    + assert (Y : forallb (fun t => forallb (fun x => negb (x =? 10)) (type_string t)) known_types = true) by (vm_compute; reflexivity). rewrite forallb_forall in Y. apply no_char, Y, K.
    + rewrite unknown_string by exact K. rewrite !in_app_iff. intros [C|[C|C]]; revert C; [apply no_char; vm_compute; reflexivity|apply sprint_no_char; [exact B|reflexivity]|apply no_char; vm_compute; reflexivity].
Qed.
Lemma line_shape : forall other p r, prop_line other p ++ r = 32 :: 32 :: 32 :: 32 :: prop_String (pr_type p) ++ 91 :: sprint_d (pr_index p) ++ 93 :: 58 :: 32 :: show other (pr_data p) ++ 10 :: r.
Proof.
  intros other p r. unfold prop_line. change (txt "    "%string) with [32; 32; 32; 32]. change (txt "["%string) with [91]. change (txt "]"%string) with [93]. change (txt ": "%string) with [58; 32].
  cbn [app]. repeat first [rewrite <- app_assoc | progress cbn [app]]. reflexivity.
Qed.
Lemma lines_apart : forall other ps qs r1 r2, Forall (fun p => 0 <= pr_index p) ps -> Forall (fun p => 0 <= pr_index p) qs ->
  Forall (fun p => ~ In 10 (show other (pr_data p))) ps -> Forall (fun p => ~ In 10 (show other (pr_data p))) qs ->
  flat_map (prop_line other) ps ++ 10 :: r1 = flat_map (prop_line other) qs ++ 10 :: r2 ->
  Forall2 (fun p q => same_or_unnamed (pr_type p) (pr_type q) /\ pr_index p = pr_index q /\ show other (pr_data p) = show other (pr_data q)) ps qs /\ r1 = r2.
Proof.
  intros other ps. induction ps as [|p ps IH]; intros qs r1 r2 U1 U2 L1 L2 E; destruct qs as [|q qs]; cbn [flat_map] in E.
  - injection E as ->. split; [constructor|reflexivity].
  - rewrite <- app_assoc, line_shape in E. discriminate E.
  - rewrite <- app_assoc, line_shape in E. discriminate E.
  - rewrite <- !app_assoc, !line_shape in E. injection E as E. inversion_clear U1 as [|? ? U1p U1']. inversion_clear U2 as [|? ? U2p U2']. inversion_clear L1 as [|? ? L1p L1']. inversion_clear L2 as [|? ? L2p L2'].
    destruct (cut_at 91 _ _ _ _ (prop_no _) (prop_no _) E) as [T E1].
    destruct (cut_at 93 _ _ _ _ (sprint_no_char 93 _ U1p eq_refl) (sprint_no_char 93 _ U2p eq_refl) E1) as [N E2]. injection E2 as E2.
    destruct (cut_at 10 _ _ _ _ L1p L2p E2) as [D E3]. destruct (IH qs r1 r2 U1' U2' L1' L2' E3) as [F R]. split; [|exact R]. constructor; [|exact F].
    split; [apply prop_alike; exact T|]. split; [apply sprint_inj; assumption|exact D].
Qed.
Lemma obj_shape : forall other o r, obj_text other o ++ r = oid_String (o_id o) ++ 10 :: flat_map (prop_line other) (o_props o) ++ 10 :: r.
Proof. intros other o r. unfold obj_text. repeat first [rewrite <- app_assoc | progress cbn [app]]. reflexivity. Qed.
Lemma obj_starts : forall other o r, obj_text other o ++ r <> [].
Proof. intros other o r E. rewrite obj_shape in E. unfold oid_String in E. cbn in E. discriminate E. Qed.
Lemma alike_same : forall other a b, Forall unsigned_obj (md_objects a) -> Forall unsigned_obj (md_objects b) -> Forall (one_line other) (md_objects a) -> Forall (one_line other) (md_objects b) ->
  md_String other a = md_String other b -> same_reading other same_or_unnamed a b.
Proof.
  intros other [a] [b]. unfold md_String, same_reading. cbn [md_objects]. revert b. induction a as [|x a IH]; intros b U1 U2 L1 L2 E; destruct b as [|y b]; cbn [flat_map] in E.
  - constructor.
  - symmetry in E. exfalso. apply (obj_starts other y _ E).
  - exfalso. apply (obj_starts other x _ E).
  - inversion_clear U1 as [|? ? X1 U1']. inversion_clear U2 as [|? ? X2 U2']. inversion_clear L1 as [|? ? Y1 L1']. inversion_clear L2 as [|? ? Y2 L2'].
    destruct X1 as (A1 & A2 & A3), X2 as (B1 & B2 & B3). rewrite !obj_shape in E. destruct (cut_at 10 _ _ _ _ (oid_no _ A1 A2) (oid_no _ B1 B2) E) as [I E1].
    destruct (lines_apart other _ _ _ _ A3 B3 Y1 Y2 E1) as [F R]. constructor; [|apply IH; assumption]. split; [|exact F]. apply texts_apart; assumption.
Qed.
Lemma same_alike : forall other a b, same_reading other same_or_unnamed a b -> md_String other a = md_String other b.
Proof.
  intros other [a] [b] S. unfold md_String. unfold same_reading in S. cbn [md_objects] in *. induction S as [|x y a b [I F] S IH]; [reflexivity|]. cbn [flat_map]. rewrite IH. f_equal. unfold obj_text. rewrite I. do 2 f_equal.
  f_equal. clear - F. induction F as [|p q ps qs (T & N & D) F IH]; [reflexivity|]. cbn [flat_map]. rewrite IH. f_equal. unfold prop_line. apply prop_alike in T. rewrite T, N, D. reflexivity.
Qed.
Lemma readings : forall other a b, Forall unsigned_obj (md_objects a) -> Forall unsigned_obj (md_objects b) -> Forall (one_line other) (md_objects a) -> Forall (one_line other) (md_objects b) ->
  (md_String other a = md_String other b <-> same_reading other same_or_unnamed a b).
Proof. intros other a b U1 U2 L1 L2. split; [apply alike_same; assumption|apply same_alike]. Qed.
Lemma named_readings : forall other a b, Forall unsigned_obj (md_objects a) -> Forall unsigned_obj (md_objects b) -> Forall (one_line other) (md_objects a) -> Forall (one_line other) (md_objects b) ->
  Forall (fun o => Forall (fun p => has_name (pr_type p)) (o_props o)) (md_objects a) -> md_String other a = md_String other b -> same_reading other eq a b.
Proof.
  intros other [a] [b] U1 U2 L1 L2 N E. apply readings in E; try assumption. unfold same_reading in *. cbn [md_objects] in *. clear U1 U2 L1 L2. induction E as [|x y a b [I F] E IH]; [constructor|].
  inversion_clear N as [|? ? N1 N2]. constructor; [|apply IH; exact N2]. split; [exact I|]. clear - F N1. induction F as [|p q ps qs (T & R) F IH]; [constructor|]. inversion_clear N1 as [|? ? M1 M2]. constructor; [|apply IH; exact M2].
  split; [|exact R]. destruct T as [T|[T _]]; [exact T|contradiction].
Qed.
Lemma unnamed_alike : exists a b, Forall unsigned_obj (md_objects a) /\ Forall unsigned_obj (md_objects b) /\ forall other, Forall (one_line other) (md_objects a) /\ Forall (one_line other) (md_objects b)
  /\ md_String other a = md_String other b /\ ~ same_reading other eq a b.
Proof.
  exists (mkMPD [mkObj [] [] (mkOid 2 1) [mkProp 65 4294967295 (VUint 7) 0]]), (mkMPD [mkObj [] [] (mkOid 2 1) [mkProp 69 4294967295 (VUint 7) 0]]).
  split; [repeat constructor; cbn; lia|]. split; [repeat constructor; cbn; lia|]. intros other.
  assert (S : forall n, Forall (one_line other) [mkObj [] [] (mkOid 2 1) [mkProp n 4294967295 (VUint 7) 0]]) by (intros n; constructor; [|constructor]; constructor; [|constructor]; cbn [show pr_data]; apply sprint_no_char; [lia|reflexivity]).
  split; [apply S|]. split; [apply S|]. split; [vm_compute; reflexivity|]. intros C. unfold same_reading in C. cbn [md_objects] in C. inversion_clear C as [|? ? ? ? [_ F] _]. cbn [o_props] in F. inversion_clear F as [|? ? ? ? [T _] _]. discriminate T.
Qed.
Lemma forged : exists a b, Forall unsigned_obj (md_objects a) /\ Forall unsigned_obj (md_objects b) /\ Forall (fun o => Forall (fun p => has_name (pr_type p)) (o_props o)) (md_objects a ++ md_objects b)
  /\ forall other, md_String other a = md_String other b /\ ~ same_reading other eq a b.
Proof.
  exists (mkMPD [mkObj [] [] (mkOid 2 1) [mkProp 77 4294967295 (VString (txt "Fan"%string)) 0; mkProp 85 4294967295 (VUint 7) 0]]),
    (mkMPD [mkObj [] [] (mkOid 2 1) [mkProp 77 4294967295 (VString (txt "Fan"%string ++ [10] ++ txt "    Present Value (85)[4294967295]: 7"%string)) 0]]).
  assert (H77 : has_name 77) by (exists (txt "ObjectName"%string); vm_compute; tauto). assert (H85 : has_name 85) by (exists (txt "PresentValue"%string); vm_compute; tauto).
  split; [repeat constructor; cbn; lia|]. split; [repeat constructor; cbn; lia|]. split; [repeat constructor; assumption|]. intros other. split; [vm_compute; reflexivity|].
  intros C. unfold same_reading in C. cbn [md_objects] in C. inversion_clear C as [|? ? ? ? [_ F] _]. cbn [o_props] in F. inversion_clear F as [|? ? ? ? _ F']. inversion F'.
Qed.
Lemma sprint_inj_all : forall a b, sprint_d a = sprint_d b -> a = b.
Proof.
  assert (D : forall n x, 0 <= n -> sprint_d n <> 45 :: x) by (intros n x H E; apply (sprint_no_char 45 n H eq_refl); rewrite E; left; reflexivity).
  assert (M : forall n, n < 0 -> sprint_d n = 45 :: sprint_d (- n)) by (intros n H; rewrite (sprint_plain (- n)) by lia; unfold sprint_d; replace (n <? 0) with true by lia; reflexivity).
  intros a b E. destruct (Z_lt_le_dec a 0) as [A|A], (Z_lt_le_dec b 0) as [B|B].
  - rewrite (M a A), (M b B) in E. injection E as E. apply sprint_inj in E; lia.
  - rewrite (M a A) in E. symmetry in E. exfalso. apply (D b _ B E).
  - rewrite (M b B) in E. exfalso. apply (D a _ A E).
  - apply sprint_inj; assumption.
Qed.
Lemma kinds_apart : forall other v w, same_kind v w -> show other v = show other w -> v = w.
Proof.
  intros other v w K E. destruct v; destruct w; cbn [same_kind] in K; try contradiction; cbn [show] in E; try reflexivity; try (apply sprint_inj_all in E; subst; reflexivity).
  - destruct b, b0; try reflexivity; discriminate E.
  - congruence.
  - destruct K as ((A & B) & C & D). apply texts_apart in E; try assumption. subst. reflexivity.
Qed.
(** ** the list of the properties *)
Lemma longest_from : forall m w, (forall x, In x m -> zlen (fst x) <= fold_left (fun w x => if w <? zlen (fst x) then zlen (fst x) else w) m w) /\ w <= fold_left (fun w (x : text * Z) => if w <? zlen (fst x) then zlen (fst x) else w) m w.
Proof.
  induction m as [|y m IH]; intros w; [split; [intros x []|cbn; lia]|]. cbn [fold_left]. destruct (IH (if w <? zlen (fst y) then zlen (fst y) else w)) as [A B].
  assert (C : w <= (if w <? zlen (fst y) then zlen (fst y) else w) /\ zlen (fst y) <= (if w <? zlen (fst y) then zlen (fst y) else w)) by (destruct (w <? zlen (fst y)) eqn:E; lia).
  split; [intros x [<-|X]; [exact (Z.le_trans _ _ _ (proj2 C) B)|apply A, X]|exact (Z.le_trans _ _ _ (proj1 C) B)].
Qed.
Lemma row_columns : forall w c1 c2, zlen c1 <= w -> exists l, print_row c1 c2 w = Some l /\ two_columns (Z.to_nat (w + 15)) c1 c2 l.
Proof.
  intros w c1 c2 H. unfold print_row, Repeat. replace (w - zlen c1 + 15 <? 0) with false by lia. eexists. split; [reflexivity|]. unfold zlen in *. unfold two_columns.
  assert (L : length (c1 ++ repeat 32 (Z.to_nat (w - Z.of_nat (length c1) + 15))) = Z.to_nat (w + 15)) by (rewrite app_length, repeat_length; lia).
  split; [lia|]. rewrite app_assoc, <- L. split.
  - rewrite firstn_app, Nat.sub_diag, firstn_all. cbn [firstn]. rewrite app_nil_r. do 2 f_equal. rewrite app_length, repeat_length. lia.
  - rewrite skipn_app, Nat.sub_diag, skipn_all. reflexivity.
Qed.
Lemma rows_columns : forall (m : list (text * Z)) w, Forall (fun x : text * Z => zlen (fst x) <= w) m -> exists ls, print_rows m w = Some ls /\ Forall2 (fun (x : text * Z) l => two_columns (Z.to_nat (w + 15)) (fst x) (sprint_d (snd x)) l) m ls.
Proof.
  intros m w. induction m as [|x m IH]; intros F; [exists []; split; [reflexivity|constructor]|]. inversion_clear F as [|? ? A B]. destruct (IH B) as (ls & E & G). destruct (row_columns w (fst x) (sprint_d (snd x)) A) as (l & R & T).
  exists (l :: ls). split; [|constructor; assumption]. cbn [print_rows]. unfold text in *. rewrite R, E. reflexivity.
Qed.
Lemma listing : forall o1 o2, Permutation propertyTypeMapping o1 -> Permutation propertyTypeMapping o2 -> exists w head rule ls names,
  PrintAllProperties o1 o2 = Some (head :: rule :: ls) /\ two_columns w (txt "Key"%string) (txt "Int"%string) head /\ Forall (eq 45) rule
  /\ Permutation standard_properties names /\ Forall2 (fun x l => exists t, numeral t (snd x) /\ two_columns w (fst x) t l) names ls.
Proof.
  intros o1 o2 P1 P2. set (w := longest_name o1). assert (K : forall x, In x o1 -> zlen (fst x) <= w) by (apply (longest_from o1 0)).
  assert (W : forall x, In x propertyTypeMapping -> zlen (fst x) <= w) by (intros x X; apply K, (Permutation_in _ P1), X).
  assert (W3 : 3 <= w) by (assert (X := W (nth 0 propertyTypeMapping ([], 0)) ltac:(left; reflexivity)); vm_compute (zlen _) in X; lia).
  destruct (row_columns w (txt "Key"%string) (txt "Int"%string) ltac:(vm_compute (zlen _); lia)) as (h & H & T).
  destruct (rows_columns o2 w) as (ls & L & F); [apply Forall_forall; intros x X; apply W, (Permutation_in _ (Permutation_sym P2)), X|].
  exists (Z.to_nat (w + 15)), h, (repeat 45 (Z.to_nat (w + 15 + 6))), ls, o2. split; [|split; [exact T|split; [|split]]].
  - unfold PrintAllProperties. fold w. cbv zeta. rewrite H, L. unfold Repeat. replace (w + 15 + 6 <? 0) with false by lia. reflexivity.
  - apply Forall_forall. intros x X. apply repeat_spec in X. symmetry. exact X.
  - eapply Permutation_trans; [|exact P2]. apply NoDup_Permutation; [apply NoDup_map_inv with (f := fst); apply names_distinct|apply NoDup_map_inv with (f := fst); vm_compute; repeat constructor; cbn; intuition discriminate|].
    intros [s p]. symmetry. apply names_same.
  - assert (N : Forall (fun x => 0 <= snd x) o2).
    { apply Forall_forall. intros x X. apply (Permutation_in _ (Permutation_sym P2)) in X. assert (Y : forallb (fun x => 0 <=? snd x) propertyTypeMapping = true) by (vm_compute; reflexivity). rewrite forallb_forall in Y. specialize (Y _ X). lia. }
    clear - F N. induction F as [|x l m ls T F IH]; [constructor|]. inversion_clear N as [|? ? A B]. constructor; [|apply IH; exact B]. exists (sprint_d (snd x)). split; [|exact T]. apply numeral_sprint; exact A.
Qed.
