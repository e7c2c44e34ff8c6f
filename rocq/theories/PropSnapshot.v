(** Several properties at once, over a network that loses messages. *)
From Coq Require Import Lia ZifyBool String.
From Verif Require Import ModelNet SpecWire SpecLayers SpecServices SpecObs SpecClient SpecNet SpecDevice SpecSnapshot ProofsSnapshot PropTypes PropDevice.

(** * C121 *)
(** The call returns the properties as they were when the first attempt was answered, or
    else when the second was; attempts that find an unreadable property do not count. *)
Theorem c121_outcome : forall (S : Type) (I : S -> Prop) (M : machine S) fuel e me dev ip port hdr id st xs f, reached dev ip port hdr -> present me = false ->
  machine_ok I M -> (forall k, I (st k)) -> reads_ok xs ->
  dv_maxapdu dev <= 65531 -> zlen hdr + zlen (spec_readmulti_request id xs) <= dv_maxapdu dev ->
  hosts_reads M ip port hdr fuel st xs f e id ->
  let g := mkDgram ip port (frame_with hdr (spec_readmulti_request id xs)) in
  let r := ReadMultiProperty fuel e me dev (mkMPD (map read_object xs)) in
  match brings M st xs f 0, brings M st xs f 1 with
  | Some objs, _ => r = ([g], COk objs)
  | None, Some objs => r = ([g; g], COk objs)
  | None, None => exists x, r = ([g; g], CErr x)
  end.
Proof. exact multi_read. Qed.
Print Assumptions c121_outcome.
(** so what a successful call returns is never put together from two moments *)
Theorem c121_one_moment : forall (S : Type) (I : S -> Prop) (M : machine S) fuel e me dev ip port hdr id st xs f objs, reached dev ip port hdr -> present me = false ->
  machine_ok I M -> (forall k, I (st k)) -> reads_ok xs ->
  dv_maxapdu dev <= 65531 -> zlen hdr + zlen (spec_readmulti_request id xs) <= dv_maxapdu dev ->
  hosts_reads M ip port hdr fuel st xs f e id ->
  snd (ReadMultiProperty fuel e me dev (mkMPD (map read_object xs))) = COk objs ->
  exists k, (k < 2)%nat /\ f k = Arrived /\ snapshot M (st k) xs = Some objs.
Proof. exact one_moment. Qed.
Print Assumptions c121_one_moment.
(** every fate of the messages occurs *)
Theorem c121_possible : forall (S : Type) (M : machine S) ip port hdr fuel st xs f id, is_byte id ->
  (forall k, f k = Arrived -> (List.length (spec_multi_answer M (st k) id xs) <= fuel)%nat) -> exists e, hosts_reads M ip port hdr fuel st xs f e id.
Proof. exact reads_possible. Qed.
Print Assumptions c121_possible.

(** Two properties of two objects, changed together between the attempts; the answer of
    the first attempt is lost. *)
Definition ex_two (a b : Z) : object_id * Z * Z -> option value :=
  fun k => if same_place k (mkOid 0 1, 85, whole) then Some (VReal a) else if same_place k (mkOid 2 7, 28, whole) then Some (VUint b) else None.
Definition ex_st (k : nat) := match k with O => ex_two 1101004800 1 | _ => ex_two 1101529088 2 end.
Definition ex_xs : list (object_id * list (Z * Z)) := [(mkOid 0 1, [(85, whole)]); (mkOid 2 7, [(28, whole)])].
Lemma ex_two_stored : forall a b, in_u32 a -> in_u32 b -> stored (ex_two a b).
Proof.
  intros a b Ha Hb k v. unfold ex_two. destruct (same_place _ _); [intro Q; injection Q as <-; exact Ha|]. destruct (same_place _ _); [intro Q; injection Q as <-; exact Hb|discriminate].
Qed.
Example c121_ex : exists e, hosts_reads store ex_host 47808 [1; 4] 100 ex_st ex_xs (ex_first AnswerLost Arrived) e 9
  /\ snd (ReadMultiProperty 100 e None (mkDev (mkOid 8 5) 1476 (mkAddr 0 0 6 (ex_host ++ octets 2 47808) [])) (mkMPD (map read_object ex_xs)))
     = COk [mkObj [] [] (mkOid 0 1) [mkProp 85 whole (VReal 1101529088) 0]; mkObj [] [] (mkOid 2 7) [mkProp 28 whole (VUint 2) 0]].
Proof.
  assert (HP : exists e, hosts_reads store ex_host 47808 [1; 4] 100 ex_st ex_xs (ex_first AnswerLost Arrived) e 9).
  { apply c121_possible; [unfold is_byte; lia|]. intros [|[|k]] H; try discriminate. vm_compute. lia. }
  destruct HP as (e & He). exists e. split; [exact He|].
  assert (K := c121_outcome _ stored store 100 e None (mkDev (mkOid 8 5) 1476 (mkAddr 0 0 6 (ex_host ++ octets 2 47808) [])) ex_host 47808 [1; 4] 9 ex_st ex_xs (ex_first AnswerLost Arrived)).
  cbv zeta in K. cbn [brings ex_first ex_st] in K.
  assert (Q : snapshot store (ex_two 1101529088 2) ex_xs = Some [mkObj [] [] (mkOid 0 1) [mkProp 85 whole (VReal 1101529088) 0]; mkObj [] [] (mkOid 2 7) [mkProp 28 whole (VUint 2) 0]]) by (vm_compute; reflexivity).
  rewrite Q in K. rewrite K; [reflexivity|left; split; [reflexivity|]|reflexivity|apply store_ok|intros [|k]; apply ex_two_stored; unfold in_u32; lia| |cbn [dv_maxapdu]; lia|vm_compute; discriminate|exact He].
  - unfold local, is_byte. cbn. repeat split; try lia; try reflexivity.
  - unfold reads_ok, ex_xs, valid_oid, in_u32, whole. repeat constructor; cbn; try lia; discriminate.
Qed.

(** * C122 *)
(** The list is carried out by each attempt that reaches the device, in order and up to
    the first write refused; the call succeeds exactly when an attempt was carried out
    to its end and answered. *)
Theorem c122_outcome : forall (S : Type) (I : S -> Prop) (M : machine S) e me dev ip port id s xs f, local dev ip port -> present me = false ->
  machine_ok I M -> I s -> writes_ok xs ->
  dv_maxapdu dev <= 65531 -> 2 + zlen (spec_writemulti_request id xs) <= dv_maxapdu dev ->
  hosts_writes M ip port s xs f e id ->
  let r := WriteMultiProperty e me dev (mkMPD (map write_object xs)) in
  (match snd r with COk _ => true | _ => false end, told_after M id xs f (List.length (fst r)) s) = settles_writes M s xs f
  /\ (snd r = COk tt \/ exists x, snd r = CErr x).
Proof. exact multi_write. Qed.
Print Assumptions c122_outcome.
(** On a device that keeps what is written: nothing else changes, a named property keeps
    its value or gets one written to it, and after success all hold what was written last. *)
Theorem c122_stored : forall (S : Type) (I : S -> Prop) (M : machine S) e me dev ip port id s xs f, local dev ip port -> present me = false ->
  machine_ok I M -> memory M -> I s -> writes_ok xs ->
  dv_maxapdu dev <= 65531 -> 2 + zlen (spec_writemulti_request id xs) <= dv_maxapdu dev ->
  hosts_writes M ip port s xs f e id ->
  let r := WriteMultiProperty e me dev (mkMPD (map write_object xs)) in
  let after := told_after M id xs f (List.length (fst r)) s in
  (forall o p idx, ~ In (o, p, idx) (map place (flat_writes xs)) -> m_read M after o p idx = m_read M s o p idx)
  /\ (forall o p idx, m_read M after o p idx = m_read M s o p idx
       \/ exists w, In (o, w) (flat_writes xs) /\ place (o, w) = (o, p, idx) /\ m_read M after o p idx = inl [SVal (wt_value w)])
  /\ (snd r = COk tt -> forall l1 o w l2, flat_writes xs = l1 ++ (o, w) :: l2 -> ~ In (place (o, w)) (map place l2) ->
       m_read M after o (wt_prop w) (wt_index w) = inl [SVal (wt_value w)]).
Proof. exact writes_stored. Qed.
Print Assumptions c122_stored.
Theorem c122_possible : forall (S : Type) (I : S -> Prop) (M : machine S) ip port s xs f id, machine_ok I M -> I s -> writes_ok xs -> is_byte id ->
  exists e, hosts_writes M ip port s xs f e id.
Proof. exact writes_possible. Qed.
Print Assumptions c122_possible.

(** the second of three writes is refused: the first is carried out (twice), the third never *)
Definition ex_ws : list (object_id * list writing) :=
  [(mkOid 0 1, [mkWriting 85 whole (VReal 1101529088) 0]); (mkOid 0 2, [mkWriting 85 whole (VReal 0) 0]); (mkOid 2 7, [mkWriting 28 whole (VUint 2) 0])].
Example c122_ex : writes_ok ex_ws /\ stored (ex_two 1101004800 1) /\ (exists e, hosts_writes store ex_host 47808 (ex_two 1101004800 1) ex_ws (fun _ => Arrived) e 9)
  /\ let '(ok, s) := settles_writes store (ex_two 1101004800 1) ex_ws (fun _ => Arrived) in
     ok = false /\ m_read store s (mkOid 0 1) 85 whole = inl [SVal (VReal 1101529088)] /\ m_read store s (mkOid 2 7) 28 whole = inl [SVal (VUint 1)].
Proof.
  assert (HX : writes_ok ex_ws).
  { unfold writes_ok, ex_ws, valid_oid, writing_ok, plain_writing, in_u32, is_byte, whole. repeat constructor; cbn; try lia; intros; discriminate. }
  assert (HS : stored (ex_two 1101004800 1)) by (apply ex_two_stored; unfold in_u32; lia).
  split; [exact HX|]. split; [exact HS|]. split; [apply (c122_possible _ stored); [apply store_ok|exact HS|exact HX|unfold is_byte; lia]|]. vm_compute. auto.
Qed.
