(** * C145: a caller keeps its WhoIs options and changes fields between calls *)
Require Import List ZArith Bool Lia.
From Verif Require Import ModelClient ModelOpts SpecOpts ProofsOpts.
Import ListNotations.
Open Scope Z_scope.

Definition op_bcast : address := mkAddr 0 0 6 [10; 0; 0; 255; 186; 192] [].
Definition op_none : edit := mkEdit None None None None.
Definition op_local : edit := mkEdit None None (Some false) None.
(** False: a global Who-Is, then GlobalBroadcast is switched off again.  The second
    Who-Is, for the local network, is addressed to all networks. *)
Theorem c145_as_written_refuted : exists wh es, wh_net (wrote wh es 2) = 0 /\ wh_global (wrote wh es 2) = false /\
  nth_error (whois_calls op_bcast None wh es) 1 <> Some (whois_frame op_bcast None (wrote wh es 2), whois_sub (wrote wh es 2)) /\
  nth_error (whois_calls op_bcast None wh es) 1 = nth_error (whois_calls op_bcast None wh es) 0.
Proof. exists (mkWho 0 0 true 0), [op_none; op_local]. split; [reflexivity|]. split; [reflexivity|]. split; [vm_compute; discriminate|vm_compute; reflexivity]. Qed.
Print Assumptions c145_as_written_refuted.
(** Every call of every sequence: it does what the caller wrote, unless there was a global
    call before and no NetworkNumber written since; then it goes to all networks. *)
Theorem c145_exact_partial : forall bcast me wh es n e, nth_error es n = Some e ->
  let w := wrote wh es (S n) in
  (~ stale wh es n -> nth_error (whois_calls bcast me wh es) n = Some (whois_frame bcast me w, whois_sub w)) /\
  (stale wh es n -> let g := mkWho (wh_low w) (wh_high w) (wh_global w) 65535 in
                    nth_error (whois_calls bcast me wh es) n = Some (whois_frame bcast me g, whois_sub g)).
Proof. exact calls_exact. Qed.
Print Assumptions c145_exact_partial.
(** So a call is as written if NetworkNumber is written for it, if it is global, or if no
    call before it was. *)
Theorem c145_as_written_partial : forall bcast me wh es n e, nth_error es n = Some e ->
  (e_net e <> None \/ wh_global (wrote wh es (S n)) = true \/ forall k, (k < n)%nat -> wh_global (wrote wh es (S k)) = false) ->
  nth_error (whois_calls bcast me wh es) n = Some (whois_frame bcast me (wrote wh es (S n)), whois_sub (wrote wh es (S n))).
Proof. exact calls_as_written. Qed.
Print Assumptions c145_as_written_partial.
(** both cases occur, and make a difference *)
Example c145_ex : let wh := mkWho 0 0 true 0 in
  stale wh [op_none; op_local] 1 /\ ~ stale wh [op_none; mkEdit None None (Some false) (Some 7)] 1 /\
  whois_frame op_bcast None (mkWho 0 0 false 65535) <> whois_frame op_bcast None (mkWho 0 0 false 0) /\
  nth_error (whois_calls op_bcast None wh [op_none; mkEdit (Some 5) None (Some false) (Some 7)]) 1 =
    Some (whois_frame op_bcast None (mkWho 5 0 false 7), (5, 4194304)).
Proof.
  intros wh. split; [|split; [|split; [vm_compute; discriminate|vm_compute; reflexivity]]].
  - exists 0%nat. split; [lia|]. split; [reflexivity|]. intros j e J E. replace j with 1%nat in E by lia. injection E as <-. reflexivity.
  - intros (k & K & _ & A). specialize (A 1%nat _ ltac:(lia) eq_refl). discriminate A.
Qed.
