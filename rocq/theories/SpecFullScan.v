(** * A function that begins with a Who-Is, from its start to its end *)
From Verif Require Import ModelClient ModelNet ModelSystem ModelScan ModelWhole ModelTime ModelScript SpecTime SpecTimeScan SpecScript.
Import ListNotations.
Open Scope Z_scope.

(** In the steps [l], which lead from [t] to [t'], goroutine [i] makes the discovery call
    [q], and nothing else; in the last of them the call returns, it is [f]. *)
Definition asks_around (bcast : address) (me : option address) (i : nat) (q : scan) (t : timed) (l : list taction) (t' : timed) (f : sdone) : Prop :=
  exists t1 la tb a, l = TDo (ZScan i q) :: la ++ [a] /\ texec bcast me t (TDo (ZScan i q)) = Some t1 /\ trun bcast me t1 la = Some tb /\
    scans_of i tb = scans_of i t /\ texec bcast me tb a = Some t' /\ scans_of i t' = f :: scans_of i t.
(** what a call of WhoIs hands to its caller: devices or an error *)
Definition whois_gives (r : sresult) (w : cerr + list found) : Prop :=
  match r, w with
  | XDevices fs, inr fs' => fs' = fs
  | XErr, inl _ => True
  | _, _ => False
  end.
(** A function that begins with a WhoIs and goes on with [rest] of its result, performed
    by goroutine [i] in the steps [l] from [t] to [t'], where [s] is still before it; the
    WhoIs was [f] and the requests after it [fs].  It does not tarry between them. *)
Definition full_scan {A} (bcast : address) (me : option address) (i : nat) (wh : whoIsOpts) (rest : cerr + list found -> script A)
  (t : timed) (l : list taction) (t' : timed) (f : sdone) (w : cerr + list found) (s : script A) (fs : list finished) : Prop :=
  exists la lb tm, l = la ++ lb /\ asks_around bcast me i (QWho wh) t la tm f /\ whois_gives (sd_result f) w /\
    performs bcast me i tm (rest w) lb t' s fs /\ without_pause bcast me i tm (rest w) lb.
(** the number of devices found *)
Definition devices (w : cerr + list found) : Z := match w with inr fs => Z.of_nat (length fs) | inl _ => 0 end.
