(** * C48: what crashes Objects *)
Require Import List ZArith Bool Permutation.
From Verif Require Import ModelClient SpecWire SpecCodec SpecServices SpecClient SpecObjectsCrash ProofsObjectsCrash.
Import ListNotations.
Open Scope Z_scope.

(** For every device and all answers: if Objects crashes, then the device takes less than
    20 octets, or one of its requests crashes by itself (C35, C12), or the answer to a
    request for names (of at most five objects) gives an object too few results or
    answers for more objects than asked. *)
Theorem c48_crash_causes_partial : forall fuel order envs me dev, (forall m, Permutation (order m) m) -> 0 <= dv_maxapdu dev ->
  snd (Objects fuel order envs me dev) = CPanic ->
  dv_maxapdu dev < 20 \/
  snd (ReadProperty (envs 0%nat) me dev (mkPD (mkObj [] [] (dv_id dev) [mkProp 76 0 VNil 0]))) = CPanic \/
  (exists k mp, snd (ReadMultiProperty fuel (envs k) me dev mp) = CPanic) \/
  (exists k ids rs, (length ids <= 5)%nat /\ snd (ReadMultiProperty fuel (envs k) me dev (info_request ids)) = COk rs /\ falls_short (length ids) rs).
Proof. exact objects_crash_causes. Qed.
Print Assumptions c48_crash_causes_partial.

(** Conversely, such an answer to the names of the objects [objs] of the list [m] always
    crashes.  The places of objects of vendor types, which are not asked for, count as
    asked when the list has an analogue input: then a surplus answer makes up an analogue
    input 0 instead. *)
Theorem c48_names_crash_exact_partial : forall fuel e me dev objs m tr rs, (forall o, In o objs -> In (o_id o) (map fst m)) ->
  let ids := map o_id (filter (fun o => oid_type (o_id o) <=? 128) objs) in
  ReadMultiProperty fuel e me dev (info_request ids) = (tr, COk rs) ->
  (snd (objectInformation fuel e me dev objs m) = CPanic <->
   falls_short (if existsb (fun id => oid_type id =? 0) (map fst m) then length objs else length ids) rs).
Proof. exact names_crash. Qed.
Print Assumptions c48_names_crash_exact_partial.

Definition oc_dev : device := mkDev (mkOid 8 1) 1476 (mkAddr 0 0 6 [10; 0; 0; 1; 186; 192] []).
Definition oc_results (k : nat) : list result := repeat (mkResult 77 whole [SVal (VString [65])]) k.
Definition oc_env (names : list (object_id * list result)) (k : nat) : env :=
  mkEnv (Some 7) (fun _ _ => mkAtt true (Some (PBytes (match k with
    | O => spec_read_ack 7 (mkOid 8 1) 76 0 [SVal (VUint 1)]
    | S O => spec_readmulti_ack 7 [(mkOid 8 1, [mkResult 76 1 [SVal (VOid (mkOid 2 3))]])]
    | _ => spec_readmulti_ack 7 names
    end)))).
Definition oc_objects (names : list (object_id * list result)) := snd (Objects 99 (fun m => m) (oc_env names) None oc_dev).
Definition oc_names : multiple_property_data := info_request [mkOid 2 3].
(** one analogue value: two texts are its name and description; one text, or two texts and
    an answer for another object, and the process is gone *)
Example c48_crash_ex :
  oc_objects [(mkOid 2 3, oc_results 2)] = COk [(mkOid 2 3, mkObj [65] [65] (mkOid 2 3) [])] /\
  oc_objects [(mkOid 2 3, oc_results 1)] = CPanic /\
  oc_objects [(mkOid 2 3, oc_results 2); (mkOid 2 4, oc_results 2)] = CPanic.
Proof. vm_compute. auto. Qed.
Example c48_short_ex : exists rs, snd (ReadMultiProperty 99 (oc_env [(mkOid 2 3, oc_results 2); (mkOid 2 4, oc_results 2)] 2) None oc_dev oc_names) = COk rs /\ falls_short 1 rs.
Proof.
  eexists. split; [vm_compute; reflexivity|]. eexists [_], _, []. split; [reflexivity|]. split.
  - repeat constructor. repeat eexists.
  - right. split; [repeat eexists|exact (le_n 1)].
Qed.
(** a vendor object beside it: the surplus answer is noted for an analogue input 0, if
    there is an analogue input *)
Definition oc_group : list object := [mkObj [] [] (mkOid 2 3) []; mkObj [] [] (mkOid 200 1) []].
Example c48_vendor_ex :
  let e := oc_env [(mkOid 2 3, oc_results 2); (mkOid 2 4, oc_results 2)] 2 in
  let m := map (fun o => (o_id o, o)) oc_group in
  snd (objectInformation 99 e None oc_dev oc_group m) = CPanic /\
  (exists m', snd (objectInformation 99 e None oc_dev oc_group ((mkOid 0 5, mkObj [] [] (mkOid 0 5) []) :: m)) = COk m' /\ In (mkOid 0 0) (map fst m')).
Proof. vm_compute. split; [reflexivity|]. eexists. split; [reflexivity|]. cbn. tauto. Qed.
