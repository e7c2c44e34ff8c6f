(** * Performing several requests on a client that others use at the same time *)
From Verif Require Import ModelClient ModelSystem ModelScan ModelWhole ModelTime ModelScript SpecSystem SpecTime.
Import ListNotations.
Open Scope Z_scope.

(** what goroutine [i] begins is the next request of the script *)
Definition by_script {A} (i : nat) (s : script A) (a : taction) : Prop :=
  match a with
  | TDo (ZRequest j rq) => j = i -> exists k, s = SCall rq k
  | TDo (ZScan j _) | TDo (ZArrive j _ _) => j <> i
  | _ => True
  end.
(** The steps [l] lead from [t] to [t']; goroutine [i], with [s] before it, comes to
    [s']; [fs] are the requests that have returned to it meanwhile. *)
Fixpoint performs {A} (bcast : address) (me : option address) (i : nat) (t : timed) (s : script A) (l : list taction)
  (t' : timed) (s' : script A) (fs : list finished) : Prop :=
  match l with
  | [] => t' = t /\ s' = s /\ fs = []
  | a :: r => by_script i s a /\ exists t1, texec bcast me t a = Some t1 /\
      (returned_of i t1 = returned_of i t /\ performs bcast me i t1 s r t' s' fs
       \/ exists f rq k fs', returned_of i t1 = f :: returned_of i t /\ s = SCall rq k /\ fs = f :: fs'
            /\ performs bcast me i t1 (k (fi_result f)) r t' s' fs')
  end.

(** the steps of the client among the steps of a run *)
Definition steps (l : list taction) : list zaction := flat_map (fun a => match a with TDo a => [a] | TPass _ => [] end) l.
(** goroutine [i] is in a request *)
Definition in_request (i : nat) (t : timed) : Prop :=
  exists x rq, nth_error (w_ph (z_w (t_z t))) i = Some x /\ req_of x = Some rq.
(** Time passes only while goroutine [i] is in a request: between two of them it does
    not tarry, and the clock is stopped when it is done. *)
Definition without_pause {A} (bcast : address) (me : option address) (i : nat) (t : timed) (s : script A) (l : list taction) : Prop :=
  forall la d lb ta sa fa, l = la ++ TPass d :: lb -> performs bcast me i t s la ta sa fa -> in_request i ta.
(** none of the answers it meets keeps a decoder for ever (C30) *)
Definition no_loop (bcast : address) (me : option address) (i : nat) (t : timed) (l : list taction) : Prop :=
  forall la lb ta x, l = la ++ lb -> trun bcast me t la = Some ta -> nth_error (w_ph (z_w (t_z ta))) i = Some x -> SpecFair.looping x = false.
Definition limits (fs : list finished) : Z := fold_right (fun f n => limit (fi_req f) + n) 0 fs.
Definition next_limit {A} (s : script A) : Z := match s with SCall rq _ => limit rq | SEnd _ => 0 end.
