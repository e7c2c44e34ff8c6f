(** * The home directory, and paths in it *)
From Verif Require Import ModelHome.
Open Scope Z_scope.

(** calls of a program, each in the surroundings of its time *)
Inductive hcall := CallDir (h : host) | CallExpand (h : host) (path : text) | CallReset | SetDisable (b : bool).
Definition do_call (c : hcall) (s : hstate) : option (text + home_error) * hstate :=
  match c with
  | CallDir h => let '(r, s) := home_Dir h s in (Some r, s)
  | CallExpand h p => let '(r, s) := home_Expand h p s in (Some r, s)
  | CallReset => (None, home_Reset s)
  | SetDisable b => (None, mkHState (hc_cache s) b)
  end.
Fixpoint calls (cs : list hcall) (s : hstate) : hstate :=
  match cs with
  | [] => s
  | c :: r => calls r (snd (do_call c s))
  end.
(** calls that leave the cache as it is *)
Definition keeps (c : hcall) : Prop := match c with CallDir _ | CallExpand _ _ => True | _ => False end.
(** a process that knows nothing yet, or is not to remember *)
Definition forgetful (s : hstate) : Prop := hc_off s = true \/ hc_cache s = [].
Definition var (h : host) (n : text) : text := hs_env h n.
(** the variable that names the directory: $home on Plan 9, else $HOME *)
Definition home_var (h : host) : text := match hs_sys h with Plan9 => [104; 111; 109; 101] | _ => [72; 79; 77; 69] end.

(** passwd(5): seven fields, the sixth is the directory; the name and the first four
    others have no colon *)
Definition no (c : Z) (s : text) : Prop := ~ In c s.
Definition passwd (name pw uid gid gecos dir shell : text) : text :=
  name ++ 58 :: pw ++ 58 :: uid ++ 58 :: gid ++ 58 :: gecos ++ 58 :: dir ++ 58 :: shell.

(** names of files, and the path from the root along them *)
Definition name_ok (p : text) : Prop := p <> [] /\ no 47 p /\ p <> [46] /\ p <> [46; 46].
Definition slashed (ps : list text) : text := flat_map (fun p => 47 :: p) ps.
Definition from_root (ps : list text) : text := match ps with [] => [47] | _ => slashed ps end.
(** POSIX pathname resolution without links: where one is after an element of a path *)
Definition go (cur : list text) (p : text) : list text :=
  if list_eq_dec Z.eq_dec p [] then cur
  else if list_eq_dec Z.eq_dec p [46] then cur
  else if list_eq_dec Z.eq_dec p [46; 46] then removelast cur
  else cur ++ [p].
(** a text with white space around it, of which it has none at its ends *)
Definition space (c : Z) : Prop := c = 32 \/ 9 <= c <= 13.
Definition padded (d out : text) : Prop := exists a b, Forall space a /\ Forall space b /\ out = a ++ d ++ b /\ d <> [] /\ ~ space (hd 0 d) /\ ~ space (last d 0).
Definition blank (r : run_result) : Prop := match r with RunOk out => Forall space out | _ => False end.
(** the same from the working directory, for how many directories up and then along which
    names *)
Definition go_here (cur : nat * list text) (p : text) : nat * list text :=
  if list_eq_dec Z.eq_dec p [] then cur
  else if list_eq_dec Z.eq_dec p [46] then cur
  else if list_eq_dec Z.eq_dec p [46; 46] then match snd cur with [] => (S (fst cur), []) | _ => (fst cur, removelast (snd cur)) end
  else (fst cur, snd cur ++ [p]).
Definition from_here (cur : nat * list text) : text :=
  match repeat [46; 46] (fst cur) ++ snd cur with [] => [46] | p :: ps => p ++ slashed ps end.
