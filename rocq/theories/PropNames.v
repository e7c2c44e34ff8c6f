(** Texts of enumerations, of errors and of units (C113-C115). *)
From Coq Require Import String.
From Verif Require Import ModelNames SpecWire SpecLayers SpecServices SpecObs SpecClient SpecNet SpecCmd SpecNames
  ProofsTypes ProofsNet ProofsNames PropTypes PropNet PropClient.
Close Scope string_scope.
Import ListNotations.
Open Scope list_scope.
Open Scope Z_scope.

(** * C113: the text of an error class, error code, unit, segmentation support or
    network layer message is its name, or its number; no two numbers share a text *)
Theorem c113_texts : forall k n, 0 <= n < limit k -> exists s, shows k n = ROk s /\ tells k n s.
Proof. exact shows_tells. Qed.
Print Assumptions c113_texts.
Theorem c113_apart : forall k n m, 0 <= n < limit k -> 0 <= m < limit k -> shows k n = shows k m -> n = m.
Proof. exact shows_apart. Qed.
Print Assumptions c113_apart.
Theorem c113_unambiguous : forall k n m s, tells k n s -> tells k m s -> n = m.
Proof. exact tells_apart. Qed.
Print Assumptions c113_unambiguous.
Example c113_ex : unit_String 62 = ROk (txt "DegreesCelsius"%string) /\ unit_String 223 = ROk (txt "Unit(223)"%string)
  /\ code_String 32 = ROk (txt "UnknownProperty"%string) /\ code_String 4294967295 = ROk (txt "ErrorCode(4294967295)"%string)
  /\ class_String 7 = ROk (txt "CommunicationError"%string) /\ seg_String 3 = ROk (txt "NoSegmentation"%string)
  /\ netmsg_String 19 = ROk (txt "NetworkIs"%string).
Proof. vm_compute. repeat split. Qed.

(** * C114: false of the Error PDUs of most services: the text names another code.  The
    texts themselves tell every class and code apart, and are right for Error PDUs in
    which class and code are bracketed. *)
Definition ex_at (b : payload) : env := mkEnv (Some 7) (fun _ _ => mkAtt true (Some b)).
Definition ex_reader : device := mkDev (mkOid 8 5) 1476 (mkAddr 0 0 0 [192; 168; 0; 7; 186; 192] [0]).
Theorem c114_error_named_refuted : exists e f n c x x' s, frame_func f /\ npdu_ok n /\ n_netmsg n = false
  /\ In c (map fst named_class) /\ In x (map fst named_code)
  /\ answered_by e [192; 168; 0; 7] 47808 0 0 7 (mkOid 0 1) 85 whole (spec_bvlc f (spec_npdu n ++ spec_error 7 12 c x))
  /\ snd (ReadProperty e ex_me ex_reader (request (mkOid 0 1) 85 whole)) = CErr (CPdu c x')
  /\ error_text c x' = ROk s /\ ~ tells_error c x s.
Proof.
  exists (ex_at (PErr 2 145)), 10, ex_npdu, 2, 32, 145, (txt "error class PropertyError code ErrorCode(145)"%string).
  split; [left; reflexivity|]. split; [apply ex_npdu_ok|]. split; [reflexivity|].
  split; [vm_compute; tauto|]. split; [vm_compute; tauto|].
  split.
  { split; [reflexivity|]. split; [split; discriminate || reflexivity|]. split; [reflexivity|].
    exists (fun _ => true), ex_src, (PErr 2 145). split; vm_compute; reflexivity. }
  split; [vm_compute; reflexivity|]. split; [vm_compute; reflexivity|].
  intro T. assert (H : 32 = 145); [|discriminate H].
  eapply error_apart; [exact T|]. destruct (error_tells 2 145) as (s & E & T'); [split; discriminate || reflexivity| split; discriminate || reflexivity|].
  vm_compute in E. injection E as <-. exact T'.
Qed.
Print Assumptions c114_error_named_refuted.
Theorem c114_standard_exact_partial : forall e me dev ip port net mac id o p idx f n svc c x, dv_addr dev = mkAddr net 0 0 (ip ++ octets 2 port) [mac] ->
  is_ip ip -> is_port port -> 0 <= net < 65536 -> is_byte mac -> own me -> valid_oid o -> valid_property p -> in_u32 idx ->
  frame_func f -> npdu_ok n -> n_netmsg n = false -> 0 <= c < 240 -> 0 <= x < 256 ->
  answered_by e ip port net mac id o p idx (spec_bvlc f (spec_npdu n ++ spec_error id svc c x)) ->
  exists x' s, snd (ReadProperty e me dev (request o p idx)) = CErr (CPdu c x') /\ error_text c x' = ROk s
  /\ tells_error c (if c mod 8 =? 5 then x else 145) s.
Proof. exact read_standard_error. Qed.
Print Assumptions c114_standard_exact_partial.
Theorem c114_bracketed_partial : forall e me dev ip port net mac id o p idx f n t svc c x rest, dv_addr dev = mkAddr net 0 0 (ip ++ octets 2 port) [mac] ->
  is_ip ip -> is_port port -> 0 <= net < 65536 -> is_byte mac -> own me -> valid_oid o -> valid_property p -> in_u32 idx ->
  frame_func f -> npdu_ok n -> n_netmsg n = false -> 0 <= t < 256 -> 0 <= c < 65536 -> in_u32 x ->
  answered_by e ip port net mac id o p idx (spec_bvlc f (spec_npdu n ++ spec_error_bracketed t id svc c x ++ rest)) ->
  exists s, snd (ReadProperty e me dev (request o p idx)) = CErr (CPdu c x) /\ error_text c x = ROk s /\ tells_error c x s.
Proof. exact read_bracketed_error. Qed.
Print Assumptions c114_bracketed_partial.
Theorem c114_unambiguous_partial : forall c x c' x' s, tells_error c x s -> tells_error c' x' s -> c = c' /\ x = x'.
Proof. exact error_apart. Qed.
Print Assumptions c114_unambiguous_partial.
Theorem c114_texts_partial : forall c x, 0 <= c < 65536 -> 0 <= x < 4294967296 -> exists s, error_text c x = ROk s /\ tells_error c x s.
Proof. exact error_tells. Qed.
Print Assumptions c114_texts_partial.
Example c114_ex : handleMsg (fun _ => true) ex_src (spec_bvlc 10 (spec_npdu ex_npdu ++ spec_error_bracketed 0 7 12 2 32)) = ([EDeliver 7 (PErr 2 32)], false)
  /\ error_text 2 32 = ROk (txt "error class PropertyError code UnknownProperty"%string)
  /\ snd (ReadProperty (ex_at (PErr 2 32)) ex_me ex_reader (request (mkOid 0 1) 85 whole)) = CErr (CPdu 2 32).
Proof. vm_compute. repeat split. Qed.

(** * C115: false: a device that reports no unit has its points in square meters, and of
    a unit number only the low 16 bits are looked up *)
Theorem c115_unit_name_refuted :
  (exists k envs p, device_fails (envs (S k)) /\ snd (PointDetails k envs ex_me ex_nd (mkPoint 1 0 0)) = COk p
     /\ UnitString p = ROk (txt "SquareMeters"%string))
  /\ (exists k envs p n s, device_answers (envs (S k)) [192; 168; 0; 7] 47808 300 4 (mkOid 0 1) 117 whole [SVal (VEnum n)]
     /\ snd (PointDetails k envs ex_me ex_nd (mkPoint 1 0 0)) = COk p /\ UnitString p = ROk s /\ ~ tells KUnit n s).
Proof.
  split.
  - exists O, (fun _ => ex_dead). eexists. split; [exact ex_dead_fails|]. split; vm_compute; reflexivity.
  - exists O, (fun _ => ex_answer (mkOid 0 1) 117 [SVal (VEnum 65598)]). eexists. exists 65598, (txt "DegreesCelsius"%string).
    split; [apply ex_answers; repeat constructor; discriminate || reflexivity|]. split; [vm_compute; reflexivity|]. split; [vm_compute; reflexivity|].
    intro T. assert (H : 65598 = 62); [|discriminate H]. eapply tells_apart; [exact T|]. left. vm_compute. tauto.
Qed.
Print Assumptions c115_unit_name_refuted.
Theorem c115_exact_partial : forall k envs me d ip port net mac t i prio r u, opened d ip port net mac -> own me -> valid_oid (mkOid t i) ->
  binary_type t = false ->
  device_reply (envs k) ip port net mac (mkOid t i) 77 whole r -> device_reply (envs (S k)) ip port net mac (mkOid t i) 117 whole u ->
  exists tr p s, PointDetails k envs me d (mkPoint i t prio) = (tr, COk p) /\ pd_unit p = number_of u
  /\ UnitString p = ROk s /\ tells KUnit (number_of u mod 65536) s.
Proof. exact unit_shown. Qed.
Print Assumptions c115_exact_partial.
Theorem c115_binary_partial : forall k envs me d ip port net mac t i prio r, opened d ip port net mac -> own me -> valid_oid (mkOid t i) ->
  binary_type t = true -> device_reply (envs k) ip port net mac (mkOid t i) 77 whole r ->
  exists tr p, PointDetails k envs me d (mkPoint i t prio) = (tr, COk p) /\ pd_unit p = 0 /\ UnitString p = ROk [].
Proof. exact unit_binary. Qed.
Print Assumptions c115_binary_partial.
Example c115_ex : exists p, snd (PointDetails 0 (fun _ => ex_answer (mkOid 0 1) 117 [SVal (VEnum 62)]) ex_me ex_nd (mkPoint 1 0 0)) = COk p
  /\ UnitString p = ROk (txt "DegreesCelsius"%string).
Proof. eexists. split; vm_compute; reflexivity. Qed.
