(** Proofs about the discovery pipeline. *)
From Verif Require Import ModelDiscover SpecDiscover.
From Coq Require Import Lia ZifyBool ZifyNat Permutation.

Lemma pexec_app : forall c a b s, pexec c s (a ++ b) = match pexec c s a with Some t => pexec c t b | None => None end.
Proof. intros c a. induction a as [|l a IH]; intros; [reflexivity|]. cbn [app pexec]. destruct (pstep c s l); [apply IH|reflexivity]. Qed.
Lemma pexec_snoc : forall c a l s t, pexec c s (a ++ [l]) = Some t -> exists u, pexec c s a = Some u /\ pstep c u l = Some t.
Proof.
  intros c a l s t H. rewrite pexec_app in H. destruct (pexec c s a) as [u|]; [|discriminate]. exists u. split; [reflexivity|].
  cbn [pexec] in H. destruct (pstep c u l); [assumption|discriminate].
Qed.
Lemma read_snoc : forall ls l, read_ok (ls ++ [l]) = read_ok ls ++ match l with LRead _ (Some d) => [d] | _ => [] end.
Proof. intros. unfold read_ok. rewrite flat_map_app. cbn [flat_map]. rewrite app_nil_r. reflexivity. Qed.

(** ** workers *)
Lemma set_nth_length : forall A i (x : A) l, length (set_nth i x l) = length l.
Proof. intros A i x l. revert i. induction l as [|y l IH]; intros [|i]; cbn; auto. Qed.
Lemma set_nth_same : forall A i (x : A) l, (i < length l)%nat -> nth_error (set_nth i x l) i = Some x.
Proof. intros A i x l. revert i. induction l as [|y l IH]; intros [|i] H; cbn in *; try lia; auto. apply IH. lia. Qed.
Lemma set_nth_other : forall A i j (x : A) l, i <> j -> nth_error (set_nth i x l) j = nth_error l j.
Proof. intros A i j x l. revert i j. induction l as [|y l IH]; intros [|i] [|j] H; cbn; auto; try congruence. Qed.
Lemma set_nth_in : forall A i (x y : A) l, In y (set_nth i x l) -> y = x \/ In y l.
Proof.
  intros A i x y l. revert i. induction l as [|z l IH]; intros [|i] H; cbn in *; auto.
  - destruct H as [->|H]; auto.
  - destruct H as [->|H]; auto. destruct (IH _ H); auto.
Qed.
Definition sending (ws : list worker) (d : ddev) : Prop := exists i ds, nth_error ws i = Some (WSending d ds).
Lemma sending_set : forall ws i w x d, nth_error ws i = Some w -> sending ws d ->
  (forall e ds, w = WSending e ds -> d <> e) -> sending (set_nth i x ws) d.
Proof.
  intros ws i w x d Hi (j & ds & Hj) Hn. exists j, ds. rewrite set_nth_other; [assumption|].
  intro E. subst j. rewrite Hi in Hj. inversion Hj; subst. eapply Hn; reflexivity.
Qed.
Lemma nth_error_lt : forall A (l : list A) i x, nth_error l i = Some x -> (i < length l)%nat.
Proof. intros A l i x H. apply nth_error_Some. congruence. Qed.
Definition all_done (ws : list worker) : Prop := forall w, In w ws -> w = WDone.
Lemma forallb_done : forall ws, forallb is_done ws = true -> all_done ws.
Proof. intros ws H w Hw. rewrite forallb_forall in H. specialize (H w Hw). destruct w; try discriminate. reflexivity. Qed.

(** ** merging *)
Lemma merge_listed : forall d rs, listed d (merge_one d rs).
Proof.
  intros d rs. unfold merge_one, listed. destruct (existsb _ rs) eqn:E.
  - apply existsb_exists in E. destruct E as (x & Hx & Hi). apply in_map_iff. exists x. split; [lia|assumption].
  - rewrite map_app. apply in_or_app. right. left. reflexivity.
Qed.
Lemma merge_mono : forall d e rs, listed e rs -> listed e (merge_one d rs).
Proof. intros d e rs H. unfold merge_one. destruct (existsb _ rs); [assumption|]. unfold listed in *. rewrite map_app. apply in_or_app. auto. Qed.
Lemma merge_nodup : forall d rs, NoDup (map dd_inst rs) -> NoDup (map dd_inst (merge_one d rs)).
Proof.
  intros d rs H. unfold merge_one. destruct (existsb _ rs) eqn:E; [assumption|]. rewrite map_app. cbn [map].
  apply (Permutation_NoDup (Permutation_cons_append (map dd_inst rs) (dd_inst d))). constructor; [|assumption].
  intro C. apply in_map_iff in C. destruct C as (x & Ex & Hx).
  assert (existsb (fun x => dd_inst x =? dd_inst d) rs = true) by (apply existsb_exists; exists x; split; [assumption|lia]). congruence.
Qed.
Lemma merge_in : forall d e rs, In e (merge_one d rs) -> e = d \/ In e rs.
Proof. intros d e rs H. unfold merge_one in H. destruct (existsb _ rs); [auto|]. apply in_app_or in H. destruct H as [H|[H|[]]]; auto. Qed.

Record pinv (c : nat) (ls : list plabel) (s : pst) : Prop := mkPI {
  pi_workers : length (p_work s) = c;
  pi_scan : (length (p_scan s) <= c)%nat;
  pi_merge : (length (p_merge s) <= c)%nat;
  pi_nodup : NoDup (map dd_inst (p_results s));
  pi_kept : forall d, In d (read_ok ls) -> listed d (p_results s) \/ In d (p_merge s) \/ sending (p_work s) d;
  pi_from : forall d, In d (p_results s) \/ In d (p_merge s) \/ sending (p_work s) d -> In d (read_ok ls);
  pi_done : p_main s = MSave \/ saved s <> None -> all_done (p_work s) /\ p_scan s = [];
  pi_scanning : forall bs, p_main s = MScan bs -> forall w, In w (p_work s) -> w <> WDone;
  pi_exit : forall w, In w (p_work s) -> w = WDone -> p_scan s = [];
  pi_saved : forall rs, saved s = Some rs -> NoDup (map dd_inst rs) /\ (forall d, In d rs -> In d (read_ok ls))
     /\ exists lost, (length lost <= c)%nat /\ forall d, In d (read_ok ls) -> listed d rs \/ In d lost
}.
Lemma pinv_init : forall c bs, pinv c [] (p_init c bs).
Proof.
  intros c bs. constructor; cbn.
  - apply repeat_length.
  - lia.
  - lia.
  - constructor.
  - contradiction.
  - intros d [H|[H|(i & ds & H)]]; try contradiction. apply nth_error_In in H. apply repeat_spec in H. discriminate.
  - intros [H|H]; congruence.
  - intros bs0 _ w H. apply repeat_spec in H. subst. discriminate.
  - reflexivity.
  - discriminate.
Qed.
Lemma done_no_worker : forall ws i w, all_done ws -> nth_error ws i = Some w -> w = WDone.
Proof. intros ws i w H E. apply nth_error_In in E. auto. Qed.
Lemma sending_of_set : forall ws i x d, sending (set_nth i x ws) d -> (exists ds, x = WSending d ds) \/ sending ws d.
Proof.
  intros ws i x d (j & ds & H). destruct (Nat.eq_dec i j) as [->|N].
  - assert (L : (j < length ws)%nat) by (rewrite <- (set_nth_length _ j x); eapply nth_error_lt; eassumption).
    rewrite set_nth_same in H by assumption. inversion H. left. eauto.
  - rewrite set_nth_other in H by assumption. right. exists j, ds. assumption.
Qed.
Lemma all_done_sending : forall ws d, all_done ws -> ~ sending ws d.
Proof. intros ws d H (i & ds & E). apply (done_no_worker ws i _ H) in E. discriminate. Qed.

Lemma pinv_step : forall c ls s l t, pinv c ls s -> pstep c s l = Some t -> pinv c (ls ++ [l]) t.
Proof.
  intros c ls s l t [I1 I2 I3 I4 I5 I6 I7 I8 I9 I10] H.
  destruct l as [| | | |i|i r|i|i|i|]; cbn [pstep] in H.
  - (* hand *)
    destruct (p_main s) as [[|b bs]| | |] eqn:EM; try discriminate. destruct (_ <? _)%nat eqn:EL; [|discriminate]. inversion H; subst t; clear H.
    constructor; cbn [p_main p_scan p_work p_merge p_results saved]; rewrite ?read_snoc, ?app_nil_r; auto.
    + rewrite app_length. cbn [length]. lia.
    + intros [C|C]; [discriminate|]. exfalso. apply C. reflexivity.
    + intros bs0 E. apply (I8 (b :: bs)). reflexivity.
    + intros w Hw Ew. exfalso. apply (I8 (b :: bs) eq_refl w Hw Ew).
    + discriminate.
  - (* close *)
    destruct (p_main s) as [[|b bs]| | |] eqn:EM; try discriminate. inversion H; subst t; clear H.
    constructor; cbn [p_main p_scan p_work p_merge p_results saved]; rewrite ?read_snoc, ?app_nil_r; auto; try discriminate.
    intros [C|C]; [discriminate|]. exfalso. apply C. reflexivity.
  - (* waited *)
    destruct (p_main s) as [?| | |] eqn:EM; try discriminate. destruct (forallb is_done (p_work s)) eqn:ED; [|discriminate]. inversion H; subst t; clear H.
    apply forallb_done in ED.
    constructor; cbn [p_main p_scan p_work p_merge p_results saved]; rewrite ?read_snoc, ?app_nil_r; auto; try discriminate.
    intros _. split; [assumption|]. destruct (p_work s) as [|w ws] eqn:EW; [|apply (I9 w); [left; reflexivity|apply ED; left; reflexivity]].
    cbn in I1. subst c. destruct (p_scan s); [reflexivity|cbn in I2; lia].
  - (* save *)
    destruct (p_main s) as [?| | |] eqn:EM; try discriminate. inversion H; subst t; clear H. destruct (I7 (or_introl eq_refl)) as [HD HS].
    constructor; cbn [p_main p_scan p_work p_merge p_results saved]; rewrite ?read_snoc, ?app_nil_r; auto; try discriminate.
    intros rs E. inversion E; subst rs. split; [assumption|]. split; [intros d Hd; apply I6; auto|].
    exists (p_merge s). split; [assumption|]. intros d Hd. destruct (I5 d Hd) as [K|[K|K]]; auto. exfalso. apply (all_done_sending _ _ HD K).
  - (* take *)
    destruct (nth_error (p_work s) i) as [[| | |]|] eqn:EN; try discriminate. destruct (p_scan s) as [|b q] eqn:ES; [discriminate|]. inversion H; subst t; clear H.
    assert (NM : ~ (p_main s = MSave \/ saved s <> None)) by (intro C; destruct (I7 C) as [_ C2]; discriminate C2).
    assert (NS : saved s = None) by (destruct (saved s); [exfalso; apply NM; right; discriminate|reflexivity]).
    constructor; cbn [p_main p_scan p_work p_merge p_results]; unfold with_work; rewrite ?read_snoc, ?app_nil_r; auto.
    + rewrite set_nth_length. assumption.
    + cbn [length] in I2. lia.
    + intros d Hd. destruct (I5 d Hd) as [K|[K|K]]; auto. right. right. apply (sending_set _ i WIdle); auto. intros; discriminate.
    + intros d [K|[K|K]]; auto. apply sending_of_set in K. destruct K as [(ds & C)|K]; [discriminate|auto].
    + intros C. exfalso. apply NM. destruct C as [C|C]; [left; assumption|right; exact C].
    + intros bs E w Hw. apply set_nth_in in Hw. destruct Hw as [->|Hw]; [discriminate|]. eapply I8; eauto.
    + intros w Hw Ew. apply set_nth_in in Hw. destruct Hw as [->|Hw]; [discriminate|]. specialize (I9 w Hw Ew). discriminate.
  - (* read *)
    destruct (nth_error (p_work s) i) as [[|[|d0 ds]| |]|] eqn:EN; try discriminate. inversion H; subst t; clear H.
    assert (NM : ~ (p_main s = MSave \/ saved s <> None)).
    { intro C. destruct (I7 C) as [C1 _]. apply (done_no_worker _ _ _ C1) in EN. discriminate. }
    assert (NS : saved s = None) by (destruct (saved s); [exfalso; apply NM; right; discriminate|reflexivity]).
    set (x := match r with Some dev => WSending dev ds | None => WBusy ds end).
    assert (Hx : x <> WDone) by (unfold x; destruct r; discriminate).
    assert (HL : (i < length (p_work s))%nat) by (eapply nth_error_lt; eassumption).
    constructor; cbn [p_main p_scan p_work p_merge p_results]; unfold with_work; fold x; rewrite ?read_snoc; auto.
    + rewrite set_nth_length. assumption.
    + intros d Hd. apply in_app_or in Hd. destruct Hd as [Hd|Hd].
      * destruct (I5 d Hd) as [K|[K|K]]; auto. right. right. apply (sending_set _ i (WBusy (d0 :: ds))); auto. intros; discriminate.
      * destruct r as [dev|]; [|contradiction]. destruct Hd as [<-|[]]. right. right. exists i, ds. apply set_nth_same. assumption.
    + intros d K. apply in_or_app. destruct K as [K|[K|K]]; [left; auto|left; auto|]. apply sending_of_set in K. destruct K as [(ds' & C)|K]; [|left; auto].
      right. unfold x in C. destruct r as [dev|]; inversion C. left. reflexivity.
    + intros C. exfalso. apply NM. destruct C as [C|C]; [left; assumption|right; exact C].
    + intros bs E w Hw. apply set_nth_in in Hw. destruct Hw as [->|Hw]; [assumption|]. eapply I8; eauto.
    + intros w Hw Ew. apply set_nth_in in Hw. destruct Hw as [->|Hw]; [contradiction|]. eauto.
    + intros rs E. unfold saved in E, NS. cbn in E. congruence.
  - (* send *)
    destruct (nth_error (p_work s) i) as [[| |dev ds|]|] eqn:EN; try discriminate. destruct (_ <? _)%nat eqn:EL; [|discriminate]. inversion H; subst t; clear H.
    assert (NM : ~ (p_main s = MSave \/ saved s <> None)).
    { intro C. destruct (I7 C) as [C1 _]. apply (done_no_worker _ _ _ C1) in EN. discriminate. }
    assert (NS : saved s = None) by (destruct (saved s); [exfalso; apply NM; right; discriminate|reflexivity]).
    constructor; cbn [p_main p_scan p_work p_merge p_results]; unfold with_work; rewrite ?read_snoc, ?app_nil_r; auto.
    + rewrite set_nth_length. assumption.
    + rewrite app_length. cbn [length]. lia.
    + intros d Hd. destruct (I5 d Hd) as [K|[K|(j & es & K)]]; auto.
      { right. left. apply in_or_app. auto. }
      destruct (Nat.eq_dec i j) as [->|N].
      * rewrite EN in K. inversion K; subst. right. left. apply in_or_app. right. left. reflexivity.
      * right. right. exists j, es. rewrite set_nth_other; assumption.
    + intros d [K|[K|K]]; auto.
      * apply in_app_or in K. destruct K as [K|[<-|[]]]; [auto|]. apply I6. right. right. exists i, ds. assumption.
      * apply sending_of_set in K. destruct K as [(ds' & C)|K]; [discriminate|auto].
    + intros C. exfalso. apply NM. destruct C as [C|C]; [left; assumption|right; exact C].
    + intros bs E w Hw. apply set_nth_in in Hw. destruct Hw as [->|Hw]; [discriminate|]. eapply I8; eauto.
    + intros w Hw Ew. apply set_nth_in in Hw. destruct Hw as [->|Hw]; [discriminate|]. eauto.
  - (* next *)
    destruct (nth_error (p_work s) i) as [[|[|]| |]|] eqn:EN; try discriminate. inversion H; subst t; clear H.
    assert (NM : ~ (p_main s = MSave \/ saved s <> None)).
    { intro C. destruct (I7 C) as [C1 _]. apply (done_no_worker _ _ _ C1) in EN. discriminate. }
    assert (NS : saved s = None) by (destruct (saved s); [exfalso; apply NM; right; discriminate|reflexivity]).
    constructor; cbn [p_main p_scan p_work p_merge p_results]; unfold with_work; rewrite ?read_snoc, ?app_nil_r; auto.
    + rewrite set_nth_length. assumption.
    + intros d Hd. destruct (I5 d Hd) as [K|[K|K]]; auto. right. right. apply (sending_set _ i (WBusy [])); auto. intros; discriminate.
    + intros d [K|[K|K]]; auto. apply sending_of_set in K. destruct K as [(ds & C)|K]; [discriminate|auto].
    + intros C. exfalso. apply NM. destruct C as [C|C]; [left; assumption|right; exact C].
    + intros bs E w Hw. apply set_nth_in in Hw. destruct Hw as [->|Hw]; [discriminate|]. eapply I8; eauto.
    + intros w Hw Ew. apply set_nth_in in Hw. destruct Hw as [->|Hw]; [discriminate|]. eauto.
  - (* exit *)
    destruct (nth_error (p_work s) i) as [[| | |]|] eqn:EN; try discriminate. destruct (p_scan s) as [|b q] eqn:ES; [|discriminate].
    assert (NM : ~ (p_main s = MSave \/ saved s <> None)).
    { intro C. destruct (I7 C) as [C1 _]. apply (done_no_worker _ _ _ C1) in EN. discriminate. }
    assert (NS : saved s = None) by (destruct (saved s); [exfalso; apply NM; right; discriminate|reflexivity]).
    assert (EM : p_main s = MWait).
    { destruct (p_main s) as [?| | |?] eqn:E; [discriminate H|reflexivity|exfalso; apply NM; left; reflexivity|unfold saved in NS; rewrite E in NS; discriminate]. }
    rewrite EM in H. inversion H; subst t; clear H.
    constructor; cbn [p_main p_scan p_work p_merge p_results]; unfold with_work; rewrite ?read_snoc, ?app_nil_r; auto; try discriminate.
    + rewrite set_nth_length. assumption.
    + intros d Hd. destruct (I5 d Hd) as [K|[K|K]]; auto. right. right. apply (sending_set _ i WIdle); auto. intros; discriminate.
    + intros d [K|[K|K]]; auto. apply sending_of_set in K. destruct K as [(ds & C)|K]; [discriminate|auto].
    + intros [C|C]; [discriminate|]. exfalso. apply C. reflexivity.
  - (* merge *)
    destruct (p_merge s) as [|d q] eqn:EQ; [discriminate|]. inversion H; subst t; clear H.
    constructor; cbn [p_main p_scan p_work p_merge p_results]; rewrite ?read_snoc, ?app_nil_r; auto.
    + cbn [length] in I3. lia.
    + apply merge_nodup. assumption.
    + intros e He. destruct (I5 e He) as [K|[[<-|K]|K]]; auto using merge_listed, merge_mono.
    + intros e [K|[K|K]]; auto.
      * apply merge_in in K. destruct K as [->|K]; [|auto]. apply I6. right. left. left. reflexivity.
      * apply I6. right. left. right. assumption.
Qed.
Lemma pinv_reach : forall c bs ls s, pexec c (p_init c bs) ls = Some s -> pinv c ls s.
Proof.
  intros c bs ls. induction ls as [|l ls IH] using rev_ind; intros s H.
  - inversion H. apply pinv_init.
  - apply pexec_snoc in H. destruct H as (u & H1 & H2). eapply pinv_step; [apply IH; exact H1|exact H2].
Qed.

(** ** progress *)
Lemma worker_moves : forall c s i w, (length (p_merge s) <= c)%nat -> (1 <= c)%nat -> nth_error (p_work s) i = Some w -> w <> WDone ->
  (p_scan s <> [] \/ p_main s = MWait) -> exists l t, pstep c s l = Some t.
Proof.
  intros c s i w HM Hc EN HD HS. destruct w as [|[|d ds]|d ds|]; [| | | |contradiction].
  - destruct (p_scan s) as [|b q] eqn:ES.
    + destruct HS as [HS|HS]; [congruence|]. exists (LExit i). cbn [pstep]. rewrite EN, ES, HS. eexists. reflexivity.
    + exists (LTake i). cbn [pstep]. rewrite EN, ES. eexists. reflexivity.
  - exists (LNext i). cbn [pstep]. rewrite EN. eexists. reflexivity.
  - exists (LRead i None). cbn [pstep]. rewrite EN. eexists. reflexivity.
  - destruct (length (p_merge s) <? c)%nat eqn:EL.
    + exists (LSend i). cbn [pstep]. rewrite EN, EL. eexists. reflexivity.
    + exists LMerge. cbn [pstep]. apply Nat.ltb_ge in EL. destruct (p_merge s) as [|x q]; [cbn [length] in EL; lia|]. eexists. reflexivity.
Qed.
Lemma not_all_done : forall ws, forallb is_done ws = false -> exists i w, nth_error ws i = Some w /\ w <> WDone.
Proof.
  intros ws. induction ws as [|w ws IH]; intro H; [discriminate|]. cbn [forallb] in H. destruct (is_done w) eqn:E.
  - destruct (IH H) as (i & x & Hx). exists (S i), x. exact Hx.
  - exists 0%nat, w. split; [reflexivity|]. intro C. subst w. discriminate.
Qed.
Lemma pipeline_progress : forall c bs ls s, (1 <= c)%nat -> pexec c (p_init c bs) ls = Some s -> saved s = None -> exists l t, pstep c s l = Some t.
Proof.
  intros c bs ls s Hc H HS. apply pinv_reach in H. destruct H as [I1 I2 I3 _ _ _ _ I8 _ _].
  destruct (p_main s) as [[|b rest]| | |rs] eqn:EM.
  - exists LClose. cbn [pstep]. rewrite EM. eexists. reflexivity.
  - destruct (length (p_scan s) <? c)%nat eqn:EL.
    + exists LHand. cbn [pstep]. rewrite EM, EL. eexists. reflexivity.
    + destruct (p_work s) as [|w ws] eqn:EW; [cbn in I1; lia|].
      apply (worker_moves c s 0 w I3 Hc); [rewrite EW; reflexivity|apply (I8 _ eq_refl); left; reflexivity|].
      left. intro C. rewrite C in EL. apply Nat.ltb_ge in EL. cbn [length] in EL. lia.
  - destruct (forallb is_done (p_work s)) eqn:ED.
    + exists LWaited. cbn [pstep]. rewrite EM, ED. eexists. reflexivity.
    + destruct (not_all_done _ ED) as (i & w & EN & HD). apply (worker_moves c s i w I3 Hc EN HD). auto.
  - exists LSave. cbn [pstep]. rewrite EM. eexists. reflexivity.
  - unfold saved in HS. rewrite EM in HS. discriminate.
Qed.

(** ** the pipeline ends *)
Definition w_batch (b : list ddev) : nat := 2 + 4 * length b.
Definition w_worker (w : worker) : nat :=
  match w with WIdle => 1 | WBusy ds => 2 + 4 * length ds | WSending _ ds => 5 + 4 * length ds | WDone => 0 end.
Definition w_main (m : mainst) : nat :=
  match m with MScan bs => 3 + list_sum (map (fun b => 1 + w_batch b)%nat bs) | MWait => 2 | MSave => 1 | MSaved _ => 0 end.
Definition weight (s : pst) : nat :=
  (w_main (p_main s) + list_sum (map w_batch (p_scan s)) + list_sum (map w_worker (p_work s)) + length (p_merge s))%nat.
Lemma sum_set : forall ws i x w, nth_error ws i = Some w ->
  (list_sum (map w_worker (set_nth i x ws)) + w_worker w = list_sum (map w_worker ws) + w_worker x)%nat.
Proof.
  intros ws. induction ws as [|y ws IH]; intros [|i] x w H; try discriminate; cbn [set_nth map list_sum fold_right nth_error] in *.
  - inversion H. lia.
  - specialize (IH i x w H). unfold list_sum in IH. lia.
Qed.
Lemma sum_app : forall a b, list_sum (a ++ b) = (list_sum a + list_sum b)%nat.
Proof. intros. apply list_sum_app. Qed.
Lemma weight_step : forall c s l t, pstep c s l = Some t -> (weight t < weight s)%nat.
Proof.
  intros c s l t H. destruct l as [| | | |i|i r|i|i|i|]; cbn [pstep] in H; unfold weight.
  - destruct (p_main s) as [[|b bs]| | |] eqn:EM; try discriminate. destruct (_ <? _)%nat; [|discriminate]. inversion H; subst t; cbn [p_main p_scan p_work p_merge w_main map].
    rewrite map_app, sum_app. cbn [map list_sum fold_right]. unfold list_sum. lia.
  - destruct (p_main s) as [[|b bs]| | |] eqn:EM; try discriminate. inversion H; subst t; cbn [p_main p_scan p_work p_merge w_main map list_sum fold_right]. unfold list_sum. lia.
  - destruct (p_main s) as [?| | |] eqn:EM; try discriminate. destruct (forallb _ _); [|discriminate]. inversion H; subst t; cbn [p_main p_scan p_work p_merge w_main]. lia.
  - destruct (p_main s) as [?| | |] eqn:EM; try discriminate. inversion H; subst t; cbn [p_main p_scan p_work p_merge w_main]. lia.
  - destruct (nth_error (p_work s) i) as [[| | |]|] eqn:EN; try discriminate. destruct (p_scan s) as [|b q]; [discriminate|]. inversion H; subst t; cbn [p_main p_scan p_work p_merge].
    unfold with_work. pose proof (sum_set _ i (WBusy b) _ EN) as HS. cbn [w_worker map list_sum fold_right] in *. unfold list_sum, w_batch in *. lia.
  - destruct (nth_error (p_work s) i) as [[|[|d0 ds]| |]|] eqn:EN; try discriminate. inversion H; subst t; cbn [p_main p_scan p_work p_merge].
    unfold with_work. pose proof (sum_set _ i (match r with Some dev => WSending dev ds | None => WBusy ds end) _ EN) as HS.
    destruct r; cbn [w_worker length] in *; lia.
  - destruct (nth_error (p_work s) i) as [[| |dev ds|]|] eqn:EN; try discriminate. destruct (_ <? _)%nat; [|discriminate]. inversion H; subst t; cbn [p_main p_scan p_work p_merge].
    unfold with_work. pose proof (sum_set _ i (WBusy ds) _ EN) as HS. rewrite app_length. cbn [w_worker length] in *. lia.
  - destruct (nth_error (p_work s) i) as [[|[|]| |]|] eqn:EN; try discriminate. inversion H; subst t; cbn [p_main p_scan p_work p_merge].
    unfold with_work. pose proof (sum_set _ i WIdle _ EN) as HS. cbn [w_worker length] in *. lia.
  - destruct (nth_error (p_work s) i) as [[| | |]|] eqn:EN; try discriminate. destruct (p_scan s) as [|b q] eqn:ES; [|discriminate].
    assert (E : t = mkP (p_main s) [] (with_work s i WDone) (p_merge s) (p_results s)) by (destruct (p_main s); congruence). subst t. cbn [p_main p_scan p_work p_merge].
    unfold with_work. pose proof (sum_set _ i WDone _ EN) as HS. cbn [w_worker length] in *. lia.
  - destruct (p_merge s) as [|d q]; [discriminate|]. inversion H; subst t; cbn [p_main p_scan p_work p_merge length]. lia.
Qed.
Lemma pipeline_ends : forall c bs ls s, pexec c (p_init c bs) ls = Some s -> (length ls <= weight (p_init c bs))%nat.
Proof.
  intros c bs ls s H. enough (length ls + weight s <= weight (p_init c bs))%nat by lia. revert s H. induction ls as [|l ls IH] using rev_ind; intros s H.
  - inversion H. cbn [length]. lia.
  - apply pexec_snoc in H. destruct H as (u & H1 & H2). specialize (IH u H1). apply weight_step in H2. rewrite app_length. cbn [length]. lia.
Qed.
(** with no worker the first batch is never taken *)
Lemma no_worker_stuck : forall b bs ls s, pexec 0 (p_init 0 (b :: bs)) ls = Some s -> s = p_init 0 (b :: bs) /\ ls = [].
Proof.
  intros b bs ls s H. destruct ls as [|l ls]; [inversion H; auto|]. cbn [pexec] in H.
  assert (E : pstep 0 (p_init 0 (b :: bs)) l = None) by (destruct l as [| | | |[|i]|[|i] r|[|i]|[|i]|[|i]|]; reflexivity).
  rewrite E in H. discriminate.
Qed.
Lemma pipeline_saved : forall c bs ls s rs, pexec c (p_init c bs) ls = Some s -> saved s = Some rs ->
  NoDup (map dd_inst rs) /\ (forall d, In d rs -> In d (read_ok ls))
  /\ exists lost, (length lost <= c)%nat /\ forall d, In d (read_ok ls) -> listed d rs \/ In d lost.
Proof. intros c bs ls s rs H HS. apply pinv_reach in H. exact (pi_saved _ _ _ H rs HS). Qed.
