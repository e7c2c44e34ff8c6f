(** C154, C155: the tables handed out to callers; counting, listing and printing objects. *)
From Coq Require Import String Permutation.
From Verif Require Import ModelTables SpecNet SpecCmd SpecTables ProofsTables.
Close Scope string_scope.
Open Scope list_scope.
Open Scope Z_scope.

(** Whatever programs do with the maps they were given, the names of the properties stay:
    Keys hands out a copy. *)
Theorem c154_properties_partial : forall cs s, (forall p, In (s, p) standard_properties -> tb_Get s (trun cs) = (p, true))
  /\ ((forall p, ~ In (s, p) standard_properties) -> tb_Get s (trun cs) = (0, false))
  /\ forall p, In (s, p) (tb_Keys (trun cs)) <-> In (s, p) standard_properties.
Proof. exact properties_stay. Qed.
Print Assumptions c154_properties_partial.
Example c154_properties_case : let cs := [TKeys; TEditKeys 0 (MPut (txt "ObjectName") 1); TEditKeys 0 (MDelete (txt "PresentValue")); TKeys; TEditListed (MDelete (nth 0 supportedList (mkService [] 0 0), false))] in
  In (txt "ObjectName", 77) standard_properties /\ tb_Get (txt "ObjectName") (trun cs) = (77, true) /\ mget text_eqb (txt "ObjectName") (nth 0 (tb_copies (trun cs)) []) = Some 1
  /\ mget text_eqb (txt "PresentValue") (nth 0 (tb_copies (trun cs)) []) = None /\ mget text_eqb (txt "PresentValue") (nth 1 (tb_copies (trun cs)) []) = Some 85.
Proof. cbv zeta. split; [vm_compute; tauto|]. vm_compute. repeat split. Qed.

(** As long as no program edits what ListAll gives, every standard service is found by its
    name, with its bit, and named by it, in every iteration order. *)
Theorem c154_looking_partial : forall cs order s bit, Forall looks cs -> Permutation (tb_svcs (trun cs)) order -> In (s, bit) standard_services ->
  exists x, tb_GetType order s = Some (x, false) /\ sv_number x = bit /\ tb_GetString (x, false) (trun cs) = s.
Proof. exact looking. Qed.
Print Assumptions c154_looking_partial.
Example c154_looking_case : let cs := [TKeys; TEditKeys 0 (MDelete (txt "ObjectName")); TListAll] in
  Forall looks cs /\ In (txt "readProperty", 12) standard_services /\ exists x, tb_GetType (rev (tb_svcs (trun cs))) (txt "readProperty") = Some (x, false) /\ sv_number x = 12.
Proof. cbv zeta. split; [repeat constructor|]. split; [vm_compute; tauto|]. eexists. split; [vm_compute; reflexivity|reflexivity]. Qed.

(** What they say after any program: the last edit of ListAll's result counts for all. *)
Theorem c154_strings_exact_partial : forall cs k, (forall s, named cs k s -> tb_GetString k (trun cs) = s)
  /\ ((forall s, ~ named cs k s) -> tb_GetString k (trun cs) = txt "Unknown ("%string ++ sv_name (fst k) ++ txt ")"%string).
Proof. exact strings_exact. Qed.
Print Assumptions c154_strings_exact_partial.
Theorem c154_types_exact_partial : forall cs order s, Permutation (tb_svcs (trun cs)) order ->
  match tb_GetType order s with Some k => named cs k s | None => forall k, ~ named cs k s end.
Proof. exact types_exact. Qed.
Print Assumptions c154_types_exact_partial.
Example c154_exact_case : let k := (mkService (txt "Private") 70 70, true) in let cs := [TEditListed (MPut k (txt "a")); TListAll; TEditListed (MPut k (txt "b")); TEditListed (MDelete (nth 3 supportedList (mkService [] 0 0), false))] in
  named cs k (txt "b") /\ tb_GetString k (trun cs) = txt "b" /\ tb_GetType (tb_svcs (trun cs)) (txt "b") = Some k /\ tb_GetType (tb_svcs (trun cs)) (txt "a") = None.
Proof. cbv zeta. vm_compute. repeat split. Qed.

(** So one caller can take a standard service away from all others … *)
Theorem c154_shared_refuted : exists e s bit x, In (s, bit) standard_services /\ tb_GetType (tb_svcs (trun [])) s = Some x /\ tb_GetString x (trun []) = s
  /\ tb_GetType (tb_svcs (trun [TListAll; TEditListed e])) s = None /\ tb_GetString x (trun [TListAll; TEditListed e]) = txt "Unknown ("%string ++ s ++ txt ")"%string.
Proof. exact shared. Qed.
Print Assumptions c154_shared_refuted.
(** … and no standard service has its name once it is marked as supported. *)
Theorem c154_marked_refuted : forall s bit, In (s, bit) standard_services -> exists x, tb_GetType serviceTable s = Some (x, false)
  /\ forall cs, Forall looks cs -> tb_GetString (x, true) (trun cs) = txt "Unknown ("%string ++ s ++ txt ")"%string.
Proof. exact marked. Qed.
Print Assumptions c154_marked_refuted.
Example c154_marked_case : In (txt "readProperty", 12) standard_services /\ exists x, tb_GetType serviceTable (txt "readProperty") = Some (x, false) /\ tb_GetString (x, true) (trun []) = txt "Unknown (readProperty)".
Proof. split; [vm_compute; tauto|]. eexists. split; vm_compute; reflexivity. Qed.

(** Len counts every object once and ObjectSlice lists every object once, in the iteration
    order of both maps. *)
Theorem c155_counted_and_listed : forall om, wf_map om -> exists ids, NoDup ids /\ (forall t i, In (t, i) ids <-> obj_at om t i <> None)
  /\ om_Len om = zlen ids /\ Forall2 (fun id o => obj_at om (fst id) (snd id) = Some o) ids (ObjectSlice om).
Proof. exact count_and_list. Qed.
Print Assumptions c155_counted_and_listed.
(** Every map that entries were put into is such a map, in every order, and holds the last
    object put at every type and instance. *)
Theorem c155_put : forall ps om, same_map (all_put ps) om -> wf_map om /\ forall t i, obj_at om t i = last_put ps t i.
Proof. exact puts. Qed.
Print Assumptions c155_put.
(** Printed identifiers tell objects apart. *)
Theorem c155_texts_apart : forall a b, 0 <= oid_inst a -> 0 <= oid_type a -> 0 <= oid_inst b -> 0 <= oid_type b -> oid_String a = oid_String b -> a = b.
Proof. exact texts_apart. Qed.
Print Assumptions c155_texts_apart.
Example c155_case : let o := fun n => mkObj [n] [] (mkOid 2 n) [] in let ps := [((2, 5), o 1); ((8, 5), o 2); ((2, 7), o 3); ((2, 5), o 4)] in
  let om := [(8, [(5, o 2)]); (2, [(7, o 3); (5, o 4)])] in
  same_map (all_put ps) om /\ om_Len om = 3 /\ ObjectSlice om = [o 2; o 3; o 4] /\ obj_at om 2 5 = Some (o 4) /\ last_put ps 2 5 = Some (o 4) /\ obj_at om 2 6 = None.
Proof.
  cbv zeta. split; [|vm_compute; repeat split]. eexists. split; [apply perm_swap|]. constructor; [split; [reflexivity|apply Permutation_refl]|]. constructor; [split; [reflexivity|apply perm_swap]|constructor].
Qed.
Example c155_texts_case : oid_String (mkOid 2 1234) = txt "Instance: 1234 Type: AnalogValue" /\ oid_String (mkOid 99 0) = txt "Instance: 0 Type: Unknown (99)".
Proof. vm_compute. split; reflexivity. Qed.
