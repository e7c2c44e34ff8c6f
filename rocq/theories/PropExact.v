(** Exact conditions for C35, C36, C46 and C63: when the receiver crashes, what it
    hands to transactions, which Who-Is covers its range, and which priority arrays
    can be read. *)
From Coq Require Import String.
From Verif Require Import ModelNet SpecExact SpecNet SpecWire SpecLayers SpecServices SpecObs SpecClient ProofsExact ProofsExactNet PropTypes.
Close Scope string_scope.
Import ListNotations.
Open Scope list_scope.
Open Scope Z_scope.

(** * C35 *)
Theorem c35_crash_exact_partial : forall known src b, is_bytes b ->
  (snd (handleMsg known src b) = true <->
   exists f apdu, carries b f apdu /\ (iam_crash apdu \/ (f = 4 /\ zlen b < 14 /\ handled known apdu))).
Proof. exact crash_exact. Qed.
Print Assumptions c35_crash_exact_partial.
(** an I-Am with an empty character string, in a frame that names a source *)
Example c35_exact_ex : exists f apdu, carries [129; 11; 0; 13; 1; 8; 0; 5; 1; 9; 16; 0; 112] f apdu /\ iam_crash apdu.
Proof.
  exists 11, [16; 0; 112]. split.
  - exists 129, 0, 13, [1; 8; 0; 5; 1; 9]. split; [reflexivity|]. split; [|right; right; reflexivity].
    exists 1, 8, [], [0; 5; 1; 9], [], []. split; [reflexivity|]. split; [reflexivity|]. split; [exists 0, 5, 1, [9]; split; reflexivity|]. split; reflexivity.
  - exists 16, [112]. split; [reflexivity|]. split; [reflexivity|]. exact Logic.I.
Qed.

(** * C36 *)
Theorem c36_deliveries_exact_partial : forall known src b id pl, is_bytes b ->
  (In (EDeliver id pl) (fst (handleMsg known src b)) <-> exists f apdu, carries b f apdu /\ hands_over apdu id pl).
Proof. exact deliveries_exact. Qed.
Print Assumptions c36_deliveries_exact_partial.
(** the same header with a simple acknowledgement *)
Example c36_exact_ex : exists f apdu, carries [129; 11; 0; 13; 1; 8; 0; 5; 1; 9; 32; 5; 15] f apdu /\ hands_over apdu 5 (PBytes [32; 5; 15]).
Proof.
  exists 11, [32; 5; 15]. split.
  - exists 129, 0, 13, [1; 8; 0; 5; 1; 9]. split; [reflexivity|]. split; [|right; right; reflexivity].
    exists 1, 8, [], [0; 5; 1; 9], [], []. split; [reflexivity|]. split; [reflexivity|]. split; [exists 0, 5, 1, [9]; split; reflexivity|]. split; reflexivity.
  - left. split; [left; reflexivity|]. split; [reflexivity|]. exists 15, []. reflexivity.
Qed.

Theorem c36_published_exact_partial : forall known src b id maxapdu seg vendor, is_bytes b ->
  ((exists k a, In (EPubIAm k (mkIam id maxapdu seg vendor a)) (fst (handleMsg known src b)))
   <-> exists f apdu, carries b f apdu /\ announces apdu id maxapdu seg vendor).
Proof. exact published_exact. Qed.
Print Assumptions c36_published_exact_partial.
(** device 1234, whose vendor is given as a bit string and counts as zero *)
Example c36_published_ex : announces [16; 0; 196; 2; 0; 4; 210; 34; 4; 0; 145; 3; 130; 0; 15] (mkOid 8 1234) 1024 3 0.
Proof. exists 16, [196; 2; 0; 4; 210; 34; 4; 0; 145; 3; 130; 0; 15]. split; [reflexivity|]. split; reflexivity. Qed.

(** * C46 *)
Theorem c46_whois_exact_partial : forall bcast me wh ip port, addr_UDPAddr bcast = Some (ip, port) -> addr_ok (whois_dest bcast wh) -> opt_addr_ok me ->
  let dest := whois_dest bcast wh in
  let n := mkNpdu 1 (Some dest) me 0 false 0 false 0 255 in
  let lo := requested_low wh in
  let hi := requested_high wh in
  exists apdu, whois_frame bcast me wh = ROk (Some (mkDgram ip port (spec_bvlc (send_func dest None) (spec_npdu n ++ apdu))))
  /\ ((forall i, lo <= i <= hi -> asks apdu i)
      <-> (hi < lo \/ hi < 2 ^ 32 \/ 4194303 <= lo mod 2 ^ 32 \/ 4194303 <= hi mod 2 ^ 32)).
Proof. exact whois_exact. Qed.
Print Assumptions c46_whois_exact_partial.
(** a range that is not covered and one that is *)
Example c46_exact_ex :
  let wh := mkWho 0 4294967301 false 0 in let wh' := mkWho 3000000000 4000000000 false 0 in
  requested_high wh = 4294967301 /\ requested_low wh = 0
  /\ ~ (4294967301 < 0 \/ 4294967301 < 2 ^ 32 \/ 4194303 <= 0 mod 2 ^ 32 \/ 4194303 <= 4294967301 mod 2 ^ 32)
  /\ requested_high wh' < 2 ^ 32
  /\ addr_ok (whois_dest (UDPToAddress [10; 0; 0; 255] 47808) wh).
Proof.
  cbn zeta. split; [reflexivity|]. split; [reflexivity|]. split; [|split; [reflexivity|unfold addr_ok; cbn; repeat split; try discriminate; constructor]].
  intros [H|[H|[H|H]]]; vm_compute in H; try discriminate H; contradiction H; reflexivity.
Qed.

(** * C63 *)
Theorem c63_priority_exact_partial : forall e me d ip port net mac t i prio vs, opened d ip port net mac -> own me -> valid_oid (mkOid t i) ->
  device_answers e ip port net mac (mkOid t i) 87 whole vs -> length vs = 16%nat ->
  exists g, (PointReadPriority e me d (mkPoint i t prio) = ([g], CPanic)
      /\ exists v, In v (map shown vs) /\ v <> VNull /\ forall n, v <> VUint n)
    \/ (exists r, PointReadPriority e me d (mkPoint i t prio) = ([g], COk r)
      /\ Forall2 slot_holds (map shown vs) (slots r)
      /\ forall v, In v (map shown vs) -> v = VNull \/ exists n, v = VUint n).
Proof. exact priority_exact. Qed.
Print Assumptions c63_priority_exact_partial.
Example c63_exact_ex : device_answers (ex_answer (mkOid 1 3) 87 (ex_slots (SVal (VReal 1084227584)))) [192; 168; 0; 7] 47808 300 4 (mkOid 1 3) 87 whole (ex_slots (SVal (VReal 1084227584)))
  /\ length (ex_slots (SVal (VReal 1084227584))) = 16%nat /\ opened ex_nd [192; 168; 0; 7] 47808 300 4.
Proof. split; [exact (proj2 c63_ex1)|]. split; [reflexivity|exact ex_opened]. Qed.
