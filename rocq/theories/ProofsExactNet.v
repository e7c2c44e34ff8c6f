(** When reading a priority array crashes, exactly (C63). *)
From Coq Require Import Lia ZifyBool ZifyNat.
From Verif Require Import ModelNet SpecNet SpecWire SpecLayers SpecServices SpecObs SpecClient ProofsTypes ProofsNet.
Open Scope Z_scope.

Lemma shown_plain : forall vs, Forall supported vs ->
  Forall plain_slot (map shown vs) \/ exists v, In v (map shown vs) /\ v <> VNull /\ forall n, v <> VUint n.
Proof.
  induction vs as [|v vs IH]; intro H; [left; constructor|]. inversion H as [|? ? Hv Hvs]; subst.
  destruct (IH Hvs) as [P|(w & Hw & N)]; [|right; exists w; split; [right; exact Hw|exact N]].
  destruct v as [v|l].
  - destruct v; cbn [supported readable] in Hv; try contradiction Hv;
      ((left; constructor; [first [exact I|exact Hv]|exact P]) || (right; eexists; split; [left; reflexivity|split; [discriminate|intro; discriminate]])).
  - right. eexists. split; [left; reflexivity|]. split; [discriminate|intro; discriminate].
Qed.
Lemma priority_exact : forall e me d ip port net mac t i prio vs, opened d ip port net mac -> own me -> valid_oid (mkOid t i) ->
  device_answers e ip port net mac (mkOid t i) 87 whole vs -> length vs = 16%nat ->
  exists g, (PointReadPriority e me d (mkPoint i t prio) = ([g], CPanic)
      /\ exists v, In v (map shown vs) /\ v <> VNull /\ forall n, v <> VUint n)
    \/ (exists r, PointReadPriority e me d (mkPoint i t prio) = ([g], COk r)
      /\ Forall2 slot_holds (map shown vs) (slots r)
      /\ forall v, In v (map shown vs) -> v = VNull \/ exists n, v = VUint n).
Proof.
  intros e me d ip port net mac t i prio vs Hop Hme Ho HA HL.
  destruct (point_priority e me d ip port net mac t i prio vs Hop Hme Ho HA ltac:(lia)) as (g & E). exists g. rewrite E.
  assert (HS : Forall supported vs) by (destruct HA as (id & _ & _ & HS & _); exact HS).
  destruct (shown_plain vs HS) as [P|B].
  - right. destruct (build_plain (mkOid t i) 87 whole (map shown vs) t P ltac:(rewrite map_length; lia)) as (r & ER & F2 & _). rewrite ER.
    exists r. split; [reflexivity|]. rewrite firstn_all2 in F2 by (rewrite map_length; lia). rewrite map_length, HL in F2.
    rewrite firstn_all2 in F2 by (rewrite slots_len; lia). split; [exact F2|].
    intros v Hv. rewrite Forall_forall in P. specialize (P v Hv). destruct v; try contradiction P; [left; reflexivity|right; eexists; reflexivity].
  - left. rewrite build_panics; [split; [reflexivity|exact B]|rewrite map_length; lia|exact B].
Qed.
