(** Scanning a device that changes, over a network that loses messages. *)
From Coq Require Import Lia Permutation.
From Verif Require Import ModelNet SpecWire SpecLayers SpecServices SpecObs SpecClient SpecNet SpecDevice SpecSnapshot SpecInventory ProofsInventory.

(** * C124 *)
(** Full claim: an object on the list throughout the scan is in the result.  An object
    put at the front of the list between two parts moves the others by one place. *)
Theorem c124_complete_refuted : exists (S : Type) (I : S -> Prop) (M : machine S) fuel order envs inv me dev ip port hdr cs st seen f o, reached dev ip port hdr /\ present me = false
  /\ valid_oid (dv_id dev) /\ zlen hdr + 59 <= dv_maxapdu dev <= 65531 /\ machine_ok I M /\ (forall m, Permutation (order m) m)
  /\ (forall k j, I (st k j) /\ holds M (dv_id dev) (st k j) (seen k j) /\ inventory_ok (seen k j))
  /\ chunks (dv_maxapdu dev / readPropRequestSize) (zlen (iv_ids (seen O O))) = ROk cs
  /\ hosts_scan M ip port hdr fuel (dv_id dev) order cs st seen f envs inv
  /\ (forall k j, In o (iv_ids (seen k j)))
  /\ exists m, snd (Objects fuel order envs me dev) = COk m /\ ~ In o (map fst m).
Proof. exact hidden. Qed.
Print Assumptions c124_complete_refuted.
(** What holds of every scan: success is faithful and failure is excused. *)
Theorem c124_faithful_partial : forall (S : Type) (I : S -> Prop) (M : machine S) fuel order envs inv me dev ip port hdr cs st seen f, reached dev ip port hdr -> present me = false ->
  valid_oid (dv_id dev) -> zlen hdr + 59 <= dv_maxapdu dev <= 65531 -> machine_ok I M -> (forall m, Permutation (order m) m) ->
  (forall k j, I (st k j) /\ holds M (dv_id dev) (st k j) (seen k j) /\ inventory_ok (seen k j)) ->
  chunks (dv_maxapdu dev / readPropRequestSize) (zlen (iv_ids (seen O O))) = ROk cs ->
  hosts_scan M ip port hdr fuel (dv_id dev) order cs st seen f envs inv ->
  (exists m, snd (Objects fuel order envs me dev) = COk m /\ faithful seen f m)
  \/ (exists x, snd (Objects fuel order envs me dev) = CErr x) /\ excused seen f.
Proof. exact scan. Qed.
Print Assumptions c124_faithful_partial.
(** An object that keeps its place is in the result. *)
Theorem c124_place_partial : forall (S : Type) (I : S -> Prop) (M : machine S) fuel order envs inv me dev ip port hdr cs st seen f, reached dev ip port hdr -> present me = false ->
  valid_oid (dv_id dev) -> zlen hdr + 59 <= dv_maxapdu dev <= 65531 -> machine_ok I M -> (forall m, Permutation (order m) m) ->
  (forall k j, I (st k j) /\ holds M (dv_id dev) (st k j) (seen k j) /\ inventory_ok (seen k j)) ->
  chunks (dv_maxapdu dev / readPropRequestSize) (zlen (iv_ids (seen O O))) = ROk cs ->
  hosts_scan M ip port hdr fuel (dv_id dev) order cs st seen f envs inv ->
  forall m o i, snd (Objects fuel order envs me dev) = COk m ->
  1 <= i <= zlen (iv_ids (seen O O)) -> (forall k j, entry (iv_ids (seen k j)) i = o) -> In o (map fst m).
Proof. exact place_found. Qed.
Print Assumptions c124_place_partial.
(** A list that does not change is returned whole or not at all. *)
Theorem c124_unchanged_partial : forall (S : Type) (I : S -> Prop) (M : machine S) fuel order envs inv me dev ip port hdr cs st v f, reached dev ip port hdr -> present me = false ->
  valid_oid (dv_id dev) -> zlen hdr + 59 <= dv_maxapdu dev <= 65531 -> machine_ok I M -> (forall m, Permutation (order m) m) ->
  (forall k j, I (st k j) /\ holds M (dv_id dev) (st k j) v) -> inventory_ok v ->
  chunks (dv_maxapdu dev / readPropRequestSize) (zlen (iv_ids v)) = ROk cs ->
  hosts_scan M ip port hdr fuel (dv_id dev) order cs st (fun _ _ => v) f envs inv ->
  (exists m, snd (Objects fuel order envs me dev) = COk m /\ Permutation m (map (fun o => (o, mkObj (iv_name v o) (iv_desc v o) o [])) (iv_ids v)))
  \/ (exists x, snd (Objects fuel order envs me dev) = CErr x) /\ (f O O <> Arrived \/ exists k, (1 <= k)%nat /\ forall j, (j < 2)%nat -> f k j <> Arrived).
Proof. exact scan_still. Qed.
Print Assumptions c124_unchanged_partial.
(** Every course of events occurs. *)
Theorem c124_possible_partial : forall (S : Type) (M : machine S) ip port hdr dev order cs st seen f inv,
  (forall k, is_byte (inv k)) -> (forall k j, (2 <= j)%nat -> f k j <> Arrived) -> holds M dev (st O O) (seen O O) ->
  exists fuel envs, hosts_scan M ip port hdr fuel dev order cs st seen f envs inv.
Proof. exact scan_possible. Qed.
Print Assumptions c124_possible_partial.
(** there are devices whose inventory is whatever one likes *)
Theorem c124_device_partial : forall dev v, machine_ok inventory_ok (catalogue dev) /\ holds (catalogue dev) dev v v.
Proof. exact (fun dev v => conj (catalogue_ok dev) (catalogue_holds dev v)). Qed.
Print Assumptions c124_device_partial.

(** Seven objects, read while the request or the answer of every first attempt but that
    of the length is lost. *)
Definition ex_loss (k j : nat) : fate := match k, j with O, O => Arrived | _, O => AnswerLost | _, 1%nat => Arrived | _, _ => NotSent end.
Example c124_ex : exists fuel envs m, hosts_scan (catalogue (mkOid 8 5)) [192; 168; 1; 20] 47808 [1; 4] fuel (mkOid 8 5) (fun m => m) [(1, 5); (6, 7)]
    (fun _ _ => stocked [1; 2; 3; 4; 5; 6; 7]) (fun _ _ => stocked [1; 2; 3; 4; 5; 6; 7]) ex_loss envs (fun k => Z.of_nat k mod 256)
  /\ snd (Objects fuel (fun m => m) envs None (mkDev (mkOid 8 5) 100 (mkAddr 0 0 6 ([192; 168; 1; 20] ++ octets 2 47808) []))) = COk m
  /\ Permutation m (map (fun o => (o, mkObj [65; 48 + oid_inst o] [66] o [])) (map (mkOid 0) [1; 2; 3; 4; 5; 6; 7])).
Proof.
  set (v := stocked [1; 2; 3; 4; 5; 6; 7]).
  assert (V : inventory_ok v).
  { apply stocked_ok; [repeat (constructor; [cbn; lia|]); constructor|repeat (constructor; [lia|]); constructor|vm_compute; reflexivity]. }
  destruct (c124_possible_partial inventory (catalogue (mkOid 8 5)) [192; 168; 1; 20] 47808 [1; 4] (mkOid 8 5) (fun m => m) [(1, 5); (6, 7)] (fun _ _ => v) (fun _ _ => v) ex_loss (fun k => Z.of_nat k mod 256)) as (fuel & envs & H).
  { intro k. unfold is_byte. pose proof (Z.mod_pos_bound (Z.of_nat k) 256 ltac:(lia)). lia. }
  { intros [|k] [|[|j]]; try lia; discriminate. }
  { apply c124_device_partial. }
  exists fuel, envs.
  destruct (c124_unchanged_partial inventory inventory_ok (catalogue (mkOid 8 5)) fuel (fun m => m) envs (fun k => Z.of_nat k mod 256) None
    (mkDev (mkOid 8 5) 100 (mkAddr 0 0 6 ([192; 168; 1; 20] ++ octets 2 47808) [])) [192; 168; 1; 20] 47808 [1; 4] [(1, 5); (6, 7)] (fun _ _ => v) v ex_loss) as [(m & E & P)|(_ & [C|(k & Hk & C)])].
  - left; split; [reflexivity|unfold local, is_byte; cbn; repeat split; try lia; try reflexivity].
  - reflexivity.
  - unfold valid_oid; cbn; lia.
  - cbn; lia.
  - apply c124_device_partial; exact v.
  - intro; apply Permutation_refl.
  - intros k j. split; [exact V|apply c124_device_partial].
  - exact V.
  - vm_compute. reflexivity.
  - exact H.
  - exists m. split; [exact H|]. split; [exact E|exact P].
  - contradiction C. reflexivity.
  - exfalso. apply (C 1%nat); [lia|]. destruct k; [lia|]. reflexivity.
Qed.
