(** * C146: what discovery calls leave behind *)
From Verif Require Import ModelClient ModelScan ModelWhole ModelTime.
Import ListNotations.
Open Scope Z_scope.

(** A discovery call starts a goroutine that transmits the request and then hands over
    its error (whois.go:62-65, whoisrouter.go:33-36, whatnetwork.go:38-41); nobody but the
    call can take it.  The goroutine ends in the step in which the call takes the error
    ([YTake]).  A call that returns in any other step leaves it behind for good.  These are
    the callers of the calls that do so, in a run from [t]. *)
Fixpoint left_behind (bcast : address) (me : option address) (t : timed) (l : list taction) : list nat :=
  match l with
  | [] => []
  | a :: r =>
      match texec bcast me t a with
      | None => []
      | Some t' =>
          (if Nat.eqb (length (y_done (z_y (t_z t')))) (length (y_done (z_y (t_z t)))) then []
           else match a, y_done (z_y (t_z t')) with
                | TDo (ZY (YTake _)), _ => []
                | _, f :: _ => [sd_thread f]
                | _, [] => []
                end) ++ left_behind bcast me t' r
      end
  end.
(** the WhoIs calls that reported that their request was not sent, and rightly *)
Definition unsent (t : timed) : list sdone :=
  filter (fun f => match sd_req f, sd_result f with QWho _, XErr => sd_failed f | _, _ => false end) (y_done (z_y (t_z t))).
