(** C156, C157: the text of a reading, and the list of the properties. *)
From Coq Require Import String Permutation.
From Verif Require Import ModelReading SpecCmd SpecReading ProofsReading.
Close Scope string_scope.
Open Scope list_scope.
Open Scope Z_scope.

(** Two readings of properties without name print alike, although they are of different
    properties … *)
Theorem c156_unnamed_refuted : exists a b, Forall unsigned_obj (md_objects a) /\ Forall unsigned_obj (md_objects b) /\ forall other, Forall (one_line other) (md_objects a) /\ Forall (one_line other) (md_objects b)
  /\ md_String other a = md_String other b /\ ~ same_reading other eq a b.
Proof. exact unnamed_alike. Qed.
Print Assumptions c156_unnamed_refuted.
(** … and a text with a line feed prints as further properties that were not read. *)
Theorem c156_forged_refuted : exists a b, Forall unsigned_obj (md_objects a) /\ Forall unsigned_obj (md_objects b) /\ Forall (fun o => Forall (fun p => has_name (pr_type p)) (o_props o)) (md_objects a ++ md_objects b)
  /\ forall other, md_String other a = md_String other b /\ ~ same_reading other eq a b.
Proof. exact forged. Qed.
Print Assumptions c156_forged_refuted.
(** Readings of properties with names whose values take one line each are told apart, even
    from readings of properties without. *)
Theorem c156_named_partial : forall other a b, Forall unsigned_obj (md_objects a) -> Forall unsigned_obj (md_objects b) -> Forall (one_line other) (md_objects a) -> Forall (one_line other) (md_objects b) ->
  Forall (fun o => Forall (fun p => has_name (pr_type p)) (o_props o)) (md_objects a) -> md_String other a = md_String other b -> same_reading other eq a b.
Proof. exact named_readings. Qed.
Print Assumptions c156_named_partial.
(** In general exactly the numbers of properties without name are lost. *)
Theorem c156_readings_exact_partial : forall other a b, Forall unsigned_obj (md_objects a) -> Forall unsigned_obj (md_objects b) -> Forall (one_line other) (md_objects a) -> Forall (one_line other) (md_objects b) ->
  (md_String other a = md_String other b <-> same_reading other same_or_unnamed a b).
Proof. exact readings. Qed.
Print Assumptions c156_readings_exact_partial.
Example c156_case : let other := fun _ : value => txt "?" in
  let a := mkMPD [mkObj [] [] (mkOid 2 1) [mkProp 77 4294967295 (VString (txt "Fan")) 0; mkProp 85 2 (VUint 7) 0]; mkObj [] [] (mkOid 8 9) [mkProp 65 0 (VBool true) 0]] in
  Forall unsigned_obj (md_objects a) /\ Forall (one_line other) (md_objects a)
  /\ md_String other a = txt "Instance: 1 Type: AnalogValue" ++ [10] ++ txt "    Object Name (77)[4294967295]: Fan" ++ [10] ++ txt "    Present Value (85)[2]: 7" ++ [10; 10]
    ++ txt "Instance: 9 Type: Device" ++ [10] ++ txt "    Unknown[0]: true" ++ [10; 10].
Proof.
  cbv zeta. split; [repeat constructor; cbn; discriminate|]. split; [|vm_compute; reflexivity].
  repeat constructor; vm_compute; intuition discriminate.
Qed.
(** Values of the same simple kind look different, unless they are the same. *)
Theorem c156_values_partial : forall other v w, same_kind v w -> show other v = show other w -> v = w.
Proof. exact kinds_apart. Qed.
Print Assumptions c156_values_partial.
Example c156_values_case : same_kind (VInt (-5)) (VInt 5) /\ show (fun _ => []) (VInt (-5)) = txt "-5" /\ show (fun _ => []) (VInt 5) = txt "5" /\ same_kind (VOid (mkOid 2 1)) (VOid (mkOid 2 11)).
Proof. vm_compute. intuition discriminate. Qed.

(** C157: the list of the properties has every one of them on one line, the number at the
    same column, whatever the orders of the two iterations, and printing it does not
    crash. *)
Theorem c157_listing : forall o1 o2, Permutation propertyTypeMapping o1 -> Permutation propertyTypeMapping o2 -> exists w head rule ls names,
  PrintAllProperties o1 o2 = Some (head :: rule :: ls) /\ two_columns w (txt "Key"%string) (txt "Int"%string) head /\ Forall (eq 45) rule
  /\ Permutation standard_properties names /\ Forall2 (fun x l => exists t, numeral t (snd x) /\ two_columns w (fst x) t l) names ls.
Proof. exact listing. Qed.
Print Assumptions c157_listing.
Example c157_case : Permutation propertyTypeMapping (rev propertyTypeMapping) /\ exists ls, PrintAllProperties propertyTypeMapping (rev propertyTypeMapping) = Some ls /\ length ls = 15%nat
  /\ nth 2 ls [] = txt "PriorityArray                  87".
Proof. split; [apply Permutation_rev|]. eexists. split; [vm_compute; reflexivity|]. split; reflexivity. Qed.
