(** The pipeline of the discovery command: cmd/cmd/discover.go:65-140.  Goroutines
    are the steps of a state machine; results of Client.Objects are chosen by the
    environment.  Logging, timing and the file written are left out; only the
    value handed to [save] is kept. *)
From Verif Require Export ModelClient.

(** a device as the pipeline sees it: its instance and everything else *)
Record ddev := mkDD { dd_inst : Z; dd_rest : Z }.
(** cmd/cmd/discover.go:72-90: a worker between batches, in a batch, blocked in
    `merge <- dev` inside a batch, or ended *)
Inductive worker := WIdle | WBusy (ds : list ddev) | WSending (d : ddev) (ds : list ddev) | WDone.
(** cmd/cmd/discover.go:123-140: the main goroutine: batches still to hand over,
    waiting for the workers, about to save, saved *)
Inductive mainst := MScan (bs : list (list ddev)) | MWait | MSave | MSaved (rs : list ddev).
Record pst := mkP {
  p_main : mainst;
  p_scan : list (list ddev);        (* channel scan *)
  p_work : list worker;
  p_merge : list ddev;              (* channel merge *)
  p_results : list ddev             (* results; the instances of repeats are theirs *)
}.
(** cmd/cmd/discover.go:67-70: [c] = concurrency; wg.Add(c) and make(chan, c) panic for
    a negative one, see [discover_start] *)
Definition p_init (c : nat) (bs : list (list ddev)) : pst := mkP (MScan bs) [] (repeat WIdle c) [] [].
Definition discover_start (concurrency : Z) (bs : list (list ddev)) : res pst :=
  if concurrency <? 0 then RPanic else ROk (p_init (Z.to_nat concurrency) bs).

Inductive plabel :=
| LHand                               (* scan <- scanned *)
| LClose                              (* close(scan) *)
| LWaited                             (* wg.Wait returned; close(merge) *)
| LSave                               (* save(output, printStdout, results) *)
| LTake (i : nat)                     (* worker i: for devs := range scan *)
| LRead (i : nat) (r : option ddev)   (* worker i: c.Objects(d) *)
| LSend (i : nat)                     (* worker i: merge <- dev *)
| LNext (i : nat)                     (* worker i: end of a batch *)
| LExit (i : nat)                     (* worker i: scan closed and empty; wg.Done *)
| LMerge.                             (* the merging goroutine takes one device *)

Fixpoint set_nth {A} (i : nat) (x : A) (l : list A) : list A :=
  match l, i with [], _ => [] | _ :: l', O => x :: l' | y :: l', S i' => y :: set_nth i' x l' end.
Definition with_work (s : pst) (i : nat) (w : worker) : list worker := set_nth i w (p_work s).
Definition is_done (w : worker) : bool := match w with WDone => true | _ => false end.
(** cmd/cmd/discover.go:93-111 *)
Definition merge_one (d : ddev) (rs : list ddev) : list ddev :=
  if existsb (fun x => dd_inst x =? dd_inst d) rs then rs else rs ++ [d].

(** None = the step is not possible in this state *)
Definition pstep (c : nat) (s : pst) (l : plabel) : option pst :=
  match l with
  | LHand => match p_main s with
      | MScan (b :: bs) => if (length (p_scan s) <? c)%nat then Some (mkP (MScan bs) (p_scan s ++ [b]) (p_work s) (p_merge s) (p_results s)) else None
      | _ => None end
  | LClose => match p_main s with MScan [] => Some (mkP MWait (p_scan s) (p_work s) (p_merge s) (p_results s)) | _ => None end
  | LWaited => match p_main s with
      | MWait => if forallb is_done (p_work s) then Some (mkP MSave (p_scan s) (p_work s) (p_merge s) (p_results s)) else None
      | _ => None end
  | LSave => match p_main s with MSave => Some (mkP (MSaved (p_results s)) (p_scan s) (p_work s) (p_merge s) (p_results s)) | _ => None end
  | LTake i => match nth_error (p_work s) i, p_scan s with
      | Some WIdle, b :: q => Some (mkP (p_main s) q (with_work s i (WBusy b)) (p_merge s) (p_results s))
      | _, _ => None end
  | LRead i r => match nth_error (p_work s) i with
      | Some (WBusy (_ :: ds)) =>
        Some (mkP (p_main s) (p_scan s) (with_work s i (match r with Some dev => WSending dev ds | None => WBusy ds end)) (p_merge s) (p_results s))
      | _ => None end
  | LSend i => match nth_error (p_work s) i with
      | Some (WSending dev ds) => if (length (p_merge s) <? c)%nat
          then Some (mkP (p_main s) (p_scan s) (with_work s i (WBusy ds)) (p_merge s ++ [dev]) (p_results s)) else None
      | _ => None end
  | LNext i => match nth_error (p_work s) i with
      | Some (WBusy []) => Some (mkP (p_main s) (p_scan s) (with_work s i WIdle) (p_merge s) (p_results s))
      | _ => None end
  | LExit i => match nth_error (p_work s) i, p_scan s, p_main s with
      | Some WIdle, [], MScan _ => None
      | Some WIdle, [], _ => Some (mkP (p_main s) [] (with_work s i WDone) (p_merge s) (p_results s))
      | _, _, _ => None end
  | LMerge => match p_merge s with
      | d :: q => Some (mkP (p_main s) (p_scan s) (p_work s) q (merge_one d (p_results s)))
      | [] => None end
  end.
Fixpoint pexec (c : nat) (s : pst) (ls : list plabel) : option pst :=
  match ls with
  | [] => Some s
  | l :: ls' => match pstep c s l with Some s' => pexec c s' ls' | None => None end
  end.
