(** Proofs about several receive loops on one socket: C149. *)
Require Import List ZArith Bool Lia Permutation.
From Verif Require Import ModelLoops SpecRun SpecLoops ProofsRun.
Import ListNotations.
Open Scope Z_scope.

Definition live (p : lpc) : bool := match p with LEnd => false | _ => true end.
Definition holds (p : lpc) : list (address * list Z) := match p with LGot m => [m] | _ => [] end.
Lemma set_split : forall l i p q, nth_error l i = Some p -> exists a b, l = a ++ p :: b /\ set_pc l i q = a ++ q :: b /\ length a = i.
Proof.
  intros l. induction l as [|x l IH]; intros [|i] p q H; try discriminate H; cbn [nth_error] in H.
  - injection H as ->. exists [], l. auto.
  - destruct (IH i p q H) as (a & b & -> & E & L). exists (x :: a), b. cbn [set_pc app length]. rewrite E. auto.
Qed.
Lemma running_set : forall o l c h o' c' h' i p q, nth_error l i = Some p ->
  (running (mkLoops o' (set_pc l i q) c' h') + (if live p then 1 else 0) = running (mkLoops o l c h) + (if live q then 1 else 0))%nat.
Proof.
  intros o l c h o' c' h' i p q H. destruct (set_split l i p q H) as (a & b & -> & -> & _). unfold running. cbn [lp_pcs]. rewrite !filter_app, !app_length. cbn [filter]. destruct p, q; cbn [live length]; lia.
Qed.
Lemma live_repeat : forall n, length (filter (fun p => match p with LEnd => false | _ => true end) (repeat LTop n)) = n.
Proof. induction n as [|n IH]; [reflexivity|]. cbn. rewrite IH. reflexivity. Qed.
Lemma count_cons : forall f a l, count f (a :: l) = ((if f a then 1 else 0) + count f l)%nat.
Proof. intros. unfold count. cbn [filter]. destruct (f a); reflexivity. Qed.
Lemma count_one : forall f a l, count f (a :: l) = (count f [a] + count f l)%nat.
Proof. intros. unfold count. cbn [filter]. destruct (f a); reflexivity. Qed.
Ltac counts := unfold failures, own_loops, scans, count; cbn [filter length].
Lemma loops_step : forall size s a s', lexec size s a = Some s' -> (running s' + failures [a] = running s + own_loops [a] + scans [a])%nat.
Proof.
  intros size s a s' E. unfold lexec in E. destruct (lp_crash s) eqn:CR; [discriminate|]. destruct s as [o l c h]. cbn [lp_pcs lp_open lp_handed] in *. destruct a as [k|i|i ip port data|i|i|].
  - injection E as <-. unfold running. cbn [lp_pcs]. rewrite filter_app, app_length, live_repeat. destruct k as [| | | | |[]| |]; cbn; lia.
  - destruct (nth_error l i) as [[]|] eqn:N; try discriminate E. injection E as <-. pose proof (running_set o l c h o c h i _ LWait N) as R. cbn [live] in R. unfold with_pc. cbn [lp_open lp_pcs lp_crash lp_handed]. counts. lia.
  - destruct (nth_error l i) as [[]|] eqn:N; try discriminate E. destruct o; [|discriminate]. destruct (udpReceive size ip port data) as [m|]; injection E as <-.
    + pose proof (running_set true l c h true c h i _ (LGot m) N) as R. cbn [live] in R. unfold with_pc. cbn [lp_open lp_pcs lp_crash lp_handed]. counts. lia.
    + counts. unfold running. cbn [lp_pcs]. lia.
  - destruct (nth_error l i) as [[]|] eqn:N; try discriminate E. injection E as <-. pose proof (running_set o l c h o c h i _ LEnd N) as R. cbn [live] in R. unfold with_pc. cbn [lp_open lp_pcs lp_crash lp_handed]. counts. lia.
  - destruct (nth_error l i) as [[]|] eqn:N; try discriminate E. injection E as <-. pose proof (running_set o l c h o false (h ++ [m]) i _ LTop N) as R. cbn [live] in R. counts. lia.
  - injection E as <-. counts. unfold running. cbn [lp_pcs]. lia.
Qed.
Lemma loops_run : forall size l s s', lrun size s l = Some s' -> (running s' + failures l = running s + own_loops l + scans l)%nat.
Proof.
  intros size l. induction l as [|a l IH]; intros s s' R; cbn [lrun] in R; [injection R as <-; cbn; lia|]. destruct (lexec size s a) as [s1|] eqn:E; [|discriminate].
  pose proof (loops_step _ _ _ _ E) as S1. specialize (IH _ _ R). unfold failures, own_loops, scans in *. rewrite (count_one _ a l), (count_one (fun a => match a with LCall NRun => true | _ => false end) a l), (count_one (fun a => match a with LCall (NWhois | NDiscover | DWhois | DDiscover | DPoints) | LCall (DObjects true) => true | _ => false end) a l). lia.
Qed.
Lemma loops_exact : forall size l s, lrun size loops_init l = Some s -> (running s + failures l = own_loops l + scans l)%nat.
Proof. intros size l s R. pose proof (loops_run _ _ _ _ R) as H. change (running loops_init) with 0%nat in H. lia. Qed.

(** growth *)
Definition grown (n : nat) : list laction := LCall NRun :: repeat (LCall NWhois) n.
Lemma grown_run : forall size n s, lp_crash s = false -> exists s', lrun size s (repeat (LCall NWhois) n) = Some s' /\ lp_crash s' = false.
Proof. intros size n. induction n as [|n IH]; intros s C; [exists s; auto|]. cbn [repeat lrun lexec]. unfold lexec. rewrite C. apply IH. reflexivity. Qed.
Lemma grown_counts : forall n, failures (grown n) = 0%nat /\ own_loops (grown n) = 1%nat /\ scans (grown n) = n.
Proof.
  intros n. unfold grown, failures, own_loops, scans. rewrite !count_cons. induction n as [|n IH]; [repeat split|]. cbn [repeat]. rewrite !count_cons. cbv iota in *. lia.
Qed.
Lemma unbounded : forall size B, exists l s, lrun size loops_init l = Some s /\ own_loops l = 1%nat /\ failures l = 0%nat /\ lp_crash s = false /\ (B < running s)%nat.
Proof.
  intros size B. destruct (grown_run size B (mkLoops true [LTop] false []) eq_refl) as (s & R & C). destruct (grown_counts B) as (A1 & A2 & A3).
  assert (R' : lrun size loops_init (grown B) = Some s) by exact R. exists (grown B), s. split; [exact R'|]. split; [exact A2|]. split; [exact A1|].
  split; [exact C|]. pose proof (loops_exact _ _ _ R') as H. lia.
Qed.

(** ** Every datagram once *)
Lemma to4_some : forall src ip, To4 src = Some ip -> ipv4_source src ip.
Proof.
  intros src ip T. assert (E : exists ip', ipv4_source src ip').
  { clear - T. unfold To4 in T. destruct (zlen src =? 4) eqn:E4.
    - exists src. split; [unfold zlen in E4; lia|left; reflexivity].
    - destruct (zlen src =? 16) eqn:E16; cbn [andb] in T; [|discriminate].
      assert (HL : length src = 16%nat) by (unfold zlen in E16; lia).
      do 16 (destruct src as [|? src]; [discriminate HL|]). destruct src; [|discriminate HL]. cbn [firstn skipn forallb] in T.
      destruct (_ && _) eqn:EB in T; [|discriminate]. exists [z11; z12; z13; z14]. split; [reflexivity|]. right. unfold mapped. cbn [app]. repeat (apply (f_equal2 (@cons Z)); [lia|]). reflexivity. }
  destruct E as (ip' & S). rewrite (to4_source _ _ S) in T. injection T as <-. exact S.
Qed.
Lemma receive_passes : forall size src port data m, udpReceive size src port data = ROk m -> passed_on size (src, port, data) m.
Proof. intros size src port data m H. unfold udpReceive in H. destruct (To4 src) as [v|] eqn:T; [|discriminate]. injection H as <-. exists v. split; [exact (to4_some _ _ T)|reflexivity]. Qed.
Lemma hand_set : forall o l c h o' c' h' i p q, nth_error l i = Some p -> holds p = [] ->
  Permutation (in_hand (mkLoops o' (set_pc l i q) c' h')) (holds q ++ in_hand (mkLoops o l c h)).
Proof.
  intros o l c h o' c' h' i p q H HP. destruct (set_split l i p q H) as (a & b & -> & -> & _). unfold in_hand. cbn [with_pc lp_pcs]. rewrite !flat_map_app. cbn [flat_map]. fold (holds p) (holds q). rewrite HP. cbn [app].
  apply Permutation_app_swap_app.
Qed.
Lemma hand_out : forall o l c h o' c' h' i m, nth_error l i = Some (LGot m) ->
  Permutation (m :: in_hand (mkLoops o' (set_pc l i LTop) c' h')) (in_hand (mkLoops o l c h)).
Proof.
  intros o l c h o' c' h' i m H. destruct (set_split l i _ LTop H) as (a & b & -> & -> & _). unfold in_hand. cbn [with_pc lp_pcs]. rewrite !flat_map_app. cbn [flat_map app]. apply Permutation_middle.
Qed.
Lemma once_step : forall size s a s', lexec size s a = Some s' -> lp_crash s' = false ->
  exists ms, Forall2 (passed_on size) (came [a]) ms /\ Permutation (lp_handed s' ++ in_hand s') (lp_handed s ++ in_hand s ++ ms).
Proof.
  intros size s a s' E LV. unfold lexec in E. destruct (lp_crash s) eqn:CR; [discriminate|]. destruct s as [o l c h]. cbn [lp_pcs lp_open lp_handed] in *. destruct a as [k|i|i ip port data|i|i|].
  - injection E as <-. exists []. split; [constructor|]. rewrite app_nil_r. cbn [lp_handed]. apply Permutation_app_head. unfold in_hand. cbn [with_pc lp_pcs]. rewrite flat_map_app.
    assert (K : flat_map holds (repeat LTop (starts k)) = []) by (generalize (starts k); intros n; induction n; [reflexivity|exact IHn]). unfold holds in K. rewrite K, app_nil_r. reflexivity.
  - destruct (nth_error l i) as [[]|] eqn:N; try discriminate E. injection E as <-. exists []. split; [constructor|]. rewrite app_nil_r. cbn [with_pc lp_handed]. apply Permutation_app_head. exact (hand_set o l c h _ _ _ i _ LWait N eq_refl).
  - destruct (nth_error l i) as [[]|] eqn:N; try discriminate E. destruct o; [|discriminate]. destruct (udpReceive size ip port data) as [m|] eqn:U; injection E as <-; [|discriminate LV].
    exists [m]. split; [constructor; [exact (receive_passes _ _ _ _ _ U)|constructor]|]. cbn [with_pc lp_handed]. apply Permutation_app_head.
    eapply Permutation_trans; [exact (hand_set true l c h _ _ _ i _ (LGot m) N eq_refl)|]. apply Permutation_app_comm.
  - destruct (nth_error l i) as [[]|] eqn:N; try discriminate E. injection E as <-. exists []. split; [constructor|]. rewrite app_nil_r. cbn [with_pc lp_handed]. apply Permutation_app_head. exact (hand_set o l c h _ _ _ i _ LEnd N eq_refl).
  - destruct (nth_error l i) as [[]|] eqn:N; try discriminate E. injection E as <-. exists []. split; [constructor|]. rewrite app_nil_r. cbn [lp_handed]. rewrite <- app_assoc. apply Permutation_app_head. exact (hand_out o l c h _ _ _ i m N).
  - injection E as <-. exists []. split; [constructor|]. rewrite app_nil_r. reflexivity.
Qed.
Lemma crash_back : forall size l s s', lrun size s l = Some s' -> lp_crash s' = false -> lp_crash s = false.
Proof.
  intros size l. induction l as [|a l IH]; intros s s' R C; cbn [lrun] in R; [injection R as <-; exact C|]. unfold lexec in R at 1. destruct (lp_crash s) eqn:K; [discriminate|reflexivity].
Qed.
Lemma once_run : forall size l s s', lrun size s l = Some s' -> lp_crash s' = false ->
  exists ms, Forall2 (passed_on size) (came l) ms /\ Permutation (lp_handed s' ++ in_hand s') (lp_handed s ++ in_hand s ++ ms).
Proof.
  intros size l. induction l as [|a l IH]; intros s s' R C; cbn [lrun] in R; [injection R as <-; exists []; split; [constructor|rewrite app_nil_r; reflexivity]|].
  destruct (lexec size s a) as [s1|] eqn:E; [|discriminate]. destruct (once_step _ _ _ _ E (crash_back _ _ _ _ R C)) as (m1 & F1 & P1). destruct (IH _ _ R C) as (m2 & F2 & P2).
  exists (m1 ++ m2). split; [unfold came in *; cbn [flat_map] in *; rewrite app_nil_r in F1; apply Forall2_app; assumption|].
  eapply Permutation_trans; [exact P2|]. rewrite app_assoc. eapply Permutation_trans; [apply Permutation_app_tail; exact P1|]. rewrite <- !app_assoc. reflexivity.
Qed.
Lemma once : forall size l s, lrun size loops_init l = Some s -> lp_crash s = false -> exists ms, Forall2 (passed_on size) (came l) ms /\ Permutation (lp_handed s ++ in_hand s) ms.
Proof. intros size l s R C. destruct (once_run _ _ _ _ R C) as (ms & F & P). exists ms. auto. Qed.
(** one loop keeps the order *)
Lemma single_step : forall size s a s', lexec size s a = Some s' -> lp_crash s' = false -> (length (lp_pcs s') <= 1)%nat ->
  exists ms, Forall2 (passed_on size) (came [a]) ms /\ lp_handed s' ++ in_hand s' = lp_handed s ++ in_hand s ++ ms.
Proof.
  intros size s a s' E LV L1. unfold lexec in E. destruct (lp_crash s) eqn:CR; [discriminate|]. destruct s as [o l c h]. cbn [lp_pcs lp_open lp_handed] in *. destruct a as [k|i|i ip port data|i|i|].
  - injection E as <-. exists []. split; [constructor|]. rewrite app_nil_r. cbn [lp_handed]. f_equal. unfold in_hand. cbn [with_pc lp_pcs]. rewrite flat_map_app.
    assert (K : flat_map holds (repeat LTop (starts k)) = []) by (generalize (starts k); intros n; induction n; [reflexivity|exact IHn]). unfold holds in K. rewrite K, app_nil_r. reflexivity.
  - destruct (nth_error l i) as [[]|] eqn:N; try discriminate E. injection E as <-. exists []. split; [constructor|]. rewrite app_nil_r. cbn [with_pc lp_handed lp_pcs] in *. f_equal.
    destruct (set_split l i _ LWait N) as (a & b & -> & EQ & _). unfold in_hand. cbn [with_pc lp_pcs]. rewrite EQ. rewrite !flat_map_app. reflexivity.
  - destruct (nth_error l i) as [[]|] eqn:N; try discriminate E. destruct o; [|discriminate]. destruct (udpReceive size ip port data) as [m|] eqn:U; injection E as <-; [|discriminate LV].
    exists [m]. split; [constructor; [exact (receive_passes _ _ _ _ _ U)|constructor]|]. cbn [with_pc lp_handed lp_pcs] in *. f_equal.
    destruct (set_split l i _ (LGot m) N) as (a & b & -> & EQ & _). unfold in_hand. cbn [with_pc lp_pcs]. rewrite EQ in *. rewrite app_length in L1. cbn [length] in L1. destruct a; [|cbn [length] in L1; lia]. destruct b; [|cbn [length] in L1; lia]. reflexivity.
  - destruct (nth_error l i) as [[]|] eqn:N; try discriminate E. injection E as <-. exists []. split; [constructor|]. rewrite app_nil_r. cbn [with_pc lp_handed lp_pcs] in *. f_equal.
    destruct (set_split l i _ LEnd N) as (a & b & -> & EQ & _). unfold in_hand. cbn [with_pc lp_pcs]. rewrite EQ. rewrite !flat_map_app. reflexivity.
  - destruct (nth_error l i) as [[]|] eqn:N; try discriminate E. injection E as <-. exists []. split; [constructor|]. rewrite app_nil_r. cbn [lp_handed lp_pcs] in *. rewrite <- app_assoc. f_equal.
    destruct (set_split l i _ LTop N) as (a & b & -> & EQ & _). unfold in_hand. cbn [with_pc lp_pcs]. rewrite EQ in *. rewrite app_length in L1. cbn [length] in L1. destruct a; [|cbn [length] in L1; lia]. destruct b; [|cbn [length] in L1; lia]. reflexivity.
  - injection E as <-. exists []. split; [constructor|]. rewrite app_nil_r. reflexivity.
Qed.
Lemma set_length : forall l i p, length (set_pc l i p) = length l.
Proof. induction l as [|x l IH]; intros [|i] p; cbn; auto. Qed.
Lemma pcs_step : forall size s a s', lexec size s a = Some s' -> length (lp_pcs s') = (length (lp_pcs s) + own_loops [a] + scans [a])%nat.
Proof.
  intros size s a s' E. unfold lexec in E. destruct (lp_crash s); [discriminate|]. destruct a as [k|i|i ip port data|i|i|]; counts.
  - injection E as <-. cbn [lp_pcs]. rewrite app_length, repeat_length. destruct k as [| | | | |[]| |]; cbn; lia.
  - destruct (nth_error _ i) as [[]|]; try discriminate E. injection E as <-. cbn [with_pc lp_pcs]. rewrite set_length. lia.
  - destruct (nth_error _ i) as [[]|]; try discriminate E. destruct (lp_open s); [|discriminate]. destruct (udpReceive _ _ _ _); injection E as <-; cbn [with_pc lp_pcs]; rewrite ?set_length; lia.
  - destruct (nth_error _ i) as [[]|]; try discriminate E. injection E as <-. cbn [with_pc lp_pcs]. rewrite set_length. lia.
  - destruct (nth_error _ i) as [[]|]; try discriminate E. injection E as <-. cbn [lp_pcs]. rewrite set_length. lia.
  - injection E as <-. cbn [lp_pcs]. lia.
Qed.
Lemma pcs_run : forall size l s s', lrun size s l = Some s' -> length (lp_pcs s') = (length (lp_pcs s) + own_loops l + scans l)%nat.
Proof.
  intros size l. induction l as [|a l IH]; intros s s' R; cbn [lrun] in R; [injection R as <-; cbn; lia|]. destruct (lexec size s a) as [s1|] eqn:E; [|discriminate].
  pose proof (pcs_step _ _ _ _ E) as S1. specialize (IH _ _ R). unfold own_loops, scans in *. rewrite (count_one _ a l), (count_one (fun a => match a with LCall (NWhois | NDiscover | DWhois | DDiscover | DPoints) | LCall (DObjects true) => true | _ => false end) a l). lia.
Qed.
Lemma single_run : forall size l s s', lrun size s l = Some s' -> lp_crash s' = false -> (length (lp_pcs s') <= 1)%nat ->
  exists ms, Forall2 (passed_on size) (came l) ms /\ lp_handed s' ++ in_hand s' = lp_handed s ++ in_hand s ++ ms.
Proof.
  intros size l. induction l as [|a l IH]; intros s s' R C L1; cbn [lrun] in R; [injection R as <-; exists []; split; [constructor|rewrite app_nil_r; reflexivity]|].
  destruct (lexec size s a) as [s1|] eqn:E; [|discriminate]. pose proof (pcs_run _ _ _ _ R) as LP. destruct (single_step _ _ _ _ E (crash_back _ _ _ _ R C) ltac:(lia)) as (m1 & F1 & P1). destruct (IH _ _ R C L1) as (m2 & F2 & P2).
  exists (m1 ++ m2). split; [unfold came in *; cbn [flat_map] in *; rewrite app_nil_r in F1; apply Forall2_app; assumption|]. rewrite P2, app_assoc, P1, <- !app_assoc. reflexivity.
Qed.
Lemma single : forall size l s, lrun size loops_init l = Some s -> lp_crash s = false -> (own_loops l + scans l <= 1)%nat -> exists ms, Forall2 (passed_on size) (came l) ms /\ lp_handed s ++ in_hand s = ms.
Proof. intros size l s R C L1. pose proof (pcs_run _ _ _ _ R) as LP. change (length (lp_pcs loops_init)) with 0%nat in LP. destruct (single_run _ _ _ _ R C ltac:(lia)) as (ms & F & P). exists ms. auto. Qed.

(** ** Hearing *)
Lemma lrun_app : forall size l1 l2 s, lrun size s (l1 ++ l2) = match lrun size s l1 with Some s' => lrun size s' l2 | None => None end.
Proof. intros size l1. induction l1 as [|a l1 IH]; intros l2 s; [reflexivity|]. cbn [app lrun]. destruct (lexec size s a); [apply IH|reflexivity]. Qed.
Lemma set_same : forall l i p q, nth_error l i = Some p -> nth_error (set_pc l i q) i = Some q.
Proof. induction l as [|x l IH]; intros [|i] p q H; try discriminate H; [reflexivity|exact (IH i p q H)]. Qed.
Definition ready (p : lpc) (i : nat) : list laction := match p with LTop => [LTurn i] | LWait => [] | LGot _ => [LHand i; LTurn i] | LEnd => [] end.
Lemma gets_ready : forall size s i p, lp_crash s = false -> lp_open s = true -> nth_error (lp_pcs s) i = Some p -> live p = true ->
  exists s1, lrun size s (ready p i) = Some s1 /\ lp_crash s1 = false /\ lp_open s1 = true /\ nth_error (lp_pcs s1) i = Some LWait.
Proof.
  intros size [o l c h] i p C O N L. cbn [lp_crash lp_open lp_pcs] in *. subst c o. destruct p as [| |m|]; try discriminate L; cbn [ready lrun]; unfold lexec; cbn [lp_crash lp_open lp_pcs lp_handed].
  - rewrite N. eexists. split; [reflexivity|]. split; [reflexivity|]. split; [reflexivity|]. cbn [with_pc lp_pcs]. exact (set_same _ _ _ _ N).
  - eexists. split; [reflexivity|]. auto.
  - rewrite N. cbn [lp_crash lp_pcs]. rewrite (set_same _ _ _ LTop N). eexists. split; [reflexivity|]. split; [reflexivity|]. split; [reflexivity|]. cbn [with_pc lp_pcs]. exact (set_same _ _ _ _ (set_same _ _ _ LTop N)).
Qed.
Lemma some_live : forall s, (0 < running s)%nat -> exists i p, nth_error (lp_pcs s) i = Some p /\ live p = true.
Proof.
  intros s H. unfold running in H. destruct (filter _ (lp_pcs s)) as [|p r] eqn:F; [cbn in H; lia|]. assert (IN : In p (p :: r)) by (left; reflexivity). rewrite <- F in IN. apply filter_In in IN. destruct IN as [I1 I2].
  destruct (In_nth_error _ _ I1) as (i & N). exists i, p. split; [exact N|]. exact I2.
Qed.
Lemma closed_step : forall size s a s', lexec size s a = Some s' -> (exists c, a = LCall c) \/ a = LClose \/ of_loop a = true.
Proof. intros size s a s' _. destruct a; eauto. Qed.
Lemma open_run : forall size l s s', lrun size s l = Some s' -> lp_open s' = true -> lp_open s = true.
Proof.
  intros size l. induction l as [|a l IH]; intros s s' R O; cbn [lrun] in R; [injection R as <-; exact O|]. destruct (lexec size s a) as [s1|] eqn:E; [|discriminate]. specialize (IH _ _ R O).
  unfold lexec in E. destruct (lp_crash s); [discriminate|]. destruct a as [k|i|i ip port data|i|i|].
  - injection E as <-. exact IH.
  - destruct (nth_error _ i) as [[]|]; try discriminate E. injection E as <-. exact IH.
  - destruct (nth_error _ i) as [[]|]; try discriminate E. destruct (lp_open s); [reflexivity|discriminate].
  - destruct (nth_error _ i) as [[]|]; try discriminate E. injection E as <-. exact IH.
  - destruct (nth_error _ i) as [[]|]; try discriminate E. injection E as <-. exact IH.
  - injection E as <-. discriminate IH.
Qed.
Lemma hears_exact : forall size s, lp_crash s = false -> (hears size s <-> lp_open s = true /\ (0 < running s)%nat).
Proof.
  intros size s C. split.
  - intros H. destruct (H [10; 0; 0; 9] [10; 0; 0; 9] 47808 []) as (l & i & s' & OL & NF & R); [split; [reflexivity|left; reflexivity]|]. rewrite lrun_app in R. destruct (lrun size s l) as [s1|] eqn:R1; [|discriminate].
    cbn [lrun] in R. unfold lexec in R. destruct (lp_crash s1); [discriminate|]. destruct (nth_error (lp_pcs s1) i) as [[]|] eqn:N; try discriminate R. destruct (lp_open s1) eqn:O; [|discriminate].
    split; [exact (open_run _ _ _ _ R1 O)|]. pose proof (loops_run _ _ _ _ R1) as LR.
    assert (Z0 : own_loops l = 0%nat /\ scans l = 0%nat). { clear - OL. induction l as [|a l IH]; [split; reflexivity|]. cbn [forallb] in OL. apply andb_prop in OL. destruct OL as [O1 O2]. destruct (IH O2) as [A B].
      unfold own_loops, scans in *. rewrite !count_cons, A, B. destruct a; try discriminate O1; split; reflexivity. }
    destruct Z0 as [Z1 Z2]. assert (P : (0 < running s1)%nat). { unfold running. apply nth_error_In in N. assert (IN : In LWait (filter (fun p => match p with LEnd => false | _ => true end) (lp_pcs s1))) by (apply filter_In; auto).
      destruct (filter _ (lp_pcs s1)); [destruct IN|cbn; lia]. }
    lia.
  - intros [O P] src ip port data S. destruct (some_live s P) as (i & p & N & L). destruct (gets_ready size s i p C O N L) as (s1 & R1 & C1 & O1 & N1). exists (ready p i), i.
    assert (U : exists m, udpReceive size src port data = ROk m) by (unfold udpReceive; rewrite (to4_source _ _ S); eauto). destruct U as (m & U).
    eexists. split; [destruct p; reflexivity|]. split; [destruct p; reflexivity|]. rewrite lrun_app, R1. cbn [lrun]. unfold lexec. rewrite C1, N1, O1, U. reflexivity.
Qed.
Definition closes (a : laction) : bool := match a with LClose => true | _ => false end.
Lemma open_kept : forall size l s s', lrun size s l = Some s' -> forallb (fun a => negb (closes a)) l = true -> lp_open s = true -> lp_open s' = true.
Proof.
  intros size l. induction l as [|a l IH]; intros s s' R F O; cbn [lrun] in R; [injection R as <-; exact O|]. destruct (lexec size s a) as [s1|] eqn:E; [|discriminate]. cbn [forallb] in F. apply andb_prop in F. destruct F as [F1 F2].
  apply (IH _ _ R F2). unfold lexec in E. destruct (lp_crash s); [discriminate|]. destruct a as [k|i|i ip port data|i|i|]; try discriminate F1.
  - injection E as <-. exact O.
  - destruct (nth_error _ i) as [[]|]; try discriminate E. injection E as <-. exact O.
  - destruct (nth_error _ i) as [[]|]; try discriminate E. rewrite O in E. destruct (udpReceive _ _ _ _); injection E as <-; [exact O|reflexivity].
  - destruct (nth_error _ i) as [[]|]; try discriminate E. injection E as <-. exact O.
  - destruct (nth_error _ i) as [[]|]; try discriminate E. injection E as <-. exact O.
Qed.
Lemma deaf_exact : forall size l s, lrun size loops_init l = Some s -> lp_crash s = false -> forallb (fun a => negb (closes a)) l = true ->
  (hears size s <-> (failures l < own_loops l + scans l)%nat).
Proof.
  intros size l s R C F. rewrite (hears_exact size s C). pose proof (open_kept _ _ _ _ R F eq_refl) as O. pose proof (loops_exact _ _ _ R) as H. split; [intros [_ P]; lia|intros P; split; [exact O|lia]].
Qed.

(** ** Closing *)
Definition left_of (p : lpc) : nat := match p with LGot _ => 3 | LTop => 2 | LWait => 1 | LEnd => 0 end.
Definition left_in (s : loops) : nat := fold_right (fun p n => (left_of p + n)%nat) 0%nat (lp_pcs s).
Lemma fold_mid : forall a p b, fold_right (fun p n => (left_of p + n)%nat) 0%nat (a ++ p :: b) = (left_of p + fold_right (fun p n => (left_of p + n)%nat) 0%nat (a ++ b))%nat.
Proof. induction a as [|x a IH]; intros p b; [reflexivity|]. cbn [app fold_right]. rewrite IH. lia. Qed.
Lemma left_set : forall l i p q, nth_error l i = Some p ->
  (fold_right (fun p n => (left_of p + n)%nat) 0%nat (set_pc l i q) + left_of p = fold_right (fun p n => (left_of p + n)%nat) 0%nat l + left_of q)%nat.
Proof. intros l i p q H. destruct (set_split l i p q H) as (a & b & -> & -> & _). rewrite !fold_mid. lia. Qed.
Lemma closing_step : forall size s a s', lp_open s = false -> of_loop a = true -> lexec size s a = Some s' -> lp_open s' = false /\ (S (left_in s') = left_in s)%nat /\ lp_crash s' = false.
Proof.
  intros size [o l c h] a s' O OL E. cbn [lp_open] in O. subst o. unfold lexec in E. cbn [lp_crash lp_pcs lp_open lp_handed] in E. destruct c; [discriminate|]. unfold left_in. destruct a as [k|i|i ip port data|i|i|]; try discriminate OL.
  - destruct (nth_error l i) as [[]|] eqn:N; try discriminate E. injection E as <-. cbn [with_pc lp_open lp_pcs]. split; [reflexivity|]. pose proof (left_set l i _ LWait N) as K. cbn [left_of] in K. split; [lia|reflexivity].
  - destruct (nth_error l i) as [[]|] eqn:N; discriminate E.
  - destruct (nth_error l i) as [[]|] eqn:N; try discriminate E. injection E as <-. cbn [with_pc lp_open lp_pcs]. split; [reflexivity|]. pose proof (left_set l i _ LEnd N) as K. cbn [left_of] in K. split; [lia|reflexivity].
  - destruct (nth_error l i) as [[]|] eqn:N; try discriminate E. injection E as <-. cbn [lp_open lp_pcs]. split; [reflexivity|]. pose proof (left_set l i _ LTop N) as K. cbn [left_of] in K. split; [lia|reflexivity].
Qed.
Lemma left_running : forall s, (left_in s <= 3 * running s)%nat /\ (left_in s = 0 -> running s = 0)%nat.
Proof.
  intros s. unfold left_in, running. induction (lp_pcs s) as [|p l [IH1 IH2]]; [cbn; lia|]. cbn [fold_right filter]. destruct p; cbn [left_of length] in *; split; try lia; intros; try (exfalso; lia); auto.
Qed.
Lemma closing_run : forall size l s s', lp_open s = false -> forallb of_loop l = true -> lrun size s l = Some s' -> (length l + left_in s' = left_in s)%nat /\ lp_open s' = false /\ (lp_crash s = false -> lp_crash s' = false).
Proof.
  intros size l. induction l as [|a l IH]; intros s s' O F R; cbn [lrun] in R; [injection R as <-; auto|]. cbn [forallb] in F. apply andb_prop in F. destruct F as [F1 F2]. destruct (lexec size s a) as [s1|] eqn:E; [|discriminate].
  destruct (closing_step _ _ _ _ O F1 E) as (O1 & L1 & C1). destruct (IH _ _ O1 F2 R) as (L2 & O2 & C2). cbn [length]. split; [lia|]. auto.
Qed.
Lemma closing : forall size l s s', lp_crash s = false -> lp_open s = false -> forallb of_loop l = true -> lrun size s l = Some s' ->
  (length l <= 3 * running s)%nat /\ came l = [] /\ ((forall a s2, of_loop a = true -> lexec size s' a <> Some s2) -> running s' = 0%nat).
Proof.
  intros size l s s' C O F R. destruct (closing_run _ _ _ _ O F R) as (L & O' & C'). specialize (C' C). destruct (left_running s) as [B _]. split; [lia|]. split.
  - clear L O' C' B. revert s O F R C. induction l as [|a l IH]; intros s O F R C; [reflexivity|]. cbn [lrun] in R. cbn [forallb] in F. apply andb_prop in F. destruct F as [F1 F2]. destruct (lexec size s a) as [s1|] eqn:E; [|discriminate].
    destruct (closing_step _ _ _ _ O F1 E) as (O1 & _ & C1). unfold came in *. cbn [flat_map]. rewrite (IH s1 O1 F2 R C1), app_nil_r. destruct a as [k|i|i ip port data|i|i|]; try reflexivity.
    exfalso. unfold lexec in E. rewrite C, O in E. destruct (nth_error _ i) as [[]|]; discriminate E.
  - intros H. destruct (Nat.eq_dec (running s') 0) as [Z|Z]; [exact Z|]. exfalso. destruct (some_live s' ltac:(lia)) as (i & p & N & LV). destruct p as [| |m|]; try discriminate LV.
    + apply (H (LTurn i) (with_pc s' i LWait) eq_refl). unfold lexec. rewrite C', N. reflexivity.
    + apply (H (LFail i) (with_pc s' i LEnd) eq_refl). unfold lexec. rewrite C', N. reflexivity.
    + eapply (H (LHand i) _ eq_refl). unfold lexec. rewrite C', N. reflexivity.
Qed.
Lemma unbounded_refutes : ~ exists B, forall size l s, lrun size loops_init l = Some s -> own_loops l = 1%nat -> (running s <= B)%nat.
Proof. intros (B & H). destruct (unbounded 2048 B) as (l & s & R & O & _ & _ & K). specialize (H _ _ _ R O). lia. Qed.
Lemma deaf_in : forall size l s, lrun size loops_init l = Some s -> lp_crash s = false -> ~ In LClose l -> (hears size s <-> (failures l < own_loops l + scans l)%nat).
Proof.
  intros size l s R C N. apply (deaf_exact size l s R C). apply forallb_forall. intros a IN. destruct a; try reflexivity. destruct (N IN).
Qed.
Lemma out_of_order : exists l s d1 d2 m2, lrun 2048 loops_init l = Some s /\ own_loops l = 1%nat /\ scans l = 1%nat /\ came l = [d1; d2] /\
  ~ passed_on 2048 d1 m2 /\ passed_on 2048 d2 m2 /\ lp_handed s = [m2].
Proof.
  exists [LCall NRun; LTurn 0; LCall NWhois; LTurn 1; LTake 0 [10; 0; 0; 7] 47808 [129; 10]; LTake 1 [10; 0; 0; 9] 47808 [129; 11]; LHand 1].
  eexists. eexists. eexists. exists (UDPToAddress [10; 0; 0; 9] 47808, [129; 11]). split; [vm_compute; reflexivity|]. split; [reflexivity|]. split; [reflexivity|]. split; [reflexivity|]. split.
  - intros (ip & _ & E). apply (f_equal (fun m => nth 1 (snd m) 0)) in E. vm_compute in E. discriminate E.
  - split; [|reflexivity]. exists [10; 0; 0; 9]. split; [split; [reflexivity|left; reflexivity]|]. vm_compute. reflexivity.
Qed.
