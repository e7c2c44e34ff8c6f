(** Model of helpers/homedir/homedir.go, with which the command line tool finds its
    configuration (cmd/cmd/root.go:54).  No proofs in this file.  Calls are sequential: the
    lock makes them so, except that two that miss the cache both look. *)
From Coq Require Import String.
From Verif Require Export ModelTypes.
Close Scope string_scope.
Open Scope list_scope.
Open Scope Z_scope.

(** what a command does: its output, or why it did not run to its end.  [RunMissing]: the
    program is not in the path; os/exec then gives an *exec.Error that wraps ErrNotFound *)
Inductive run_result := RunOk (out : text) | RunMissing | RunFailed.
Inductive system := Windows | Plan9 | Darwin | OtherUnix.
(** what the process can see of its system; [hs_env] gives [] for what is not set *)
Record host := mkHost
  { hs_sys : system; hs_env : list Z -> text; hs_dscl : run_result; hs_getent : run_result; hs_shell : run_result }.
Inductive home_error := HCommand | HBlank | HVariables | HUser.

Definition sHOME : text := txt "HOME"%string.
Definition shome : text := txt "home"%string.
Definition sUSERPROFILE : text := txt "USERPROFILE"%string.
Definition sHOMEDRIVE : text := txt "HOMEDRIVE"%string.
Definition sHOMEPATH : text := txt "HOMEPATH"%string.

(** strings.TrimSpace for ASCII; the other white space of Unicode is not modelled *)
Definition is_space (c : Z) : bool := (c =? 32) || ((9 <=? c) && (c <=? 13)).
Fixpoint trim_left (s : text) : text :=
  match s with
  | c :: r => if is_space c then trim_left r else s
  | [] => []
  end.
Definition TrimSpace (s : text) : text := rev (trim_left (rev (trim_left s))).
Definition is_empty (s : text) : bool := match s with [] => true | _ => false end.

(** helpers/homedir/homedir.go:132-145 *)
Definition by_shell (h : host) : text + home_error :=
  match hs_shell h with
  | RunOk out => if is_empty (TrimSpace out) then inr HBlank else inl (TrimSpace out)
  | _ => inr HCommand
  end.
(** helpers/homedir/homedir.go:88-146; at 117 [err] is an *exec.Error or *exec.ExitError,
    never exec.ErrNotFound itself, so that every error is returned.  SplitN(passwd, ":", 7)
    has the same sixth field as Split. *)
Definition dirUnix (h : host) : text + home_error :=
  let home := hs_env h (match hs_sys h with Plan9 => shome | _ => sHOME end) in
  if negb (is_empty home) then inl home
  else match hs_sys h with
  | Darwin => match hs_dscl h with
              | RunOk out => if negb (is_empty (TrimSpace out)) then inl (TrimSpace out) else by_shell h
              | _ => by_shell h
              end
  | _ => match hs_getent h with
         | RunOk out =>
           if negb (is_empty (TrimSpace out)) && (5 <? zlen (split 58 (TrimSpace out)))
           then inl (nth 5 (split 58 (TrimSpace out)) []) else by_shell h
         | _ => inr HCommand
         end
  end.
(** helpers/homedir/homedir.go:148-167 *)
Definition dirWindows (h : host) : text + home_error :=
  if negb (is_empty (hs_env h sHOME)) then inl (hs_env h sHOME)
  else if negb (is_empty (hs_env h sUSERPROFILE)) then inl (hs_env h sUSERPROFILE)
  else if is_empty (hs_env h sHOMEDRIVE) || is_empty (hs_env h sHOMEPATH) then inr HVariables
  else inl (hs_env h sHOMEDRIVE ++ hs_env h sHOMEPATH).

(** homedirCache and DisableCache: helpers/homedir/homedir.go:16-19 *)
Record hstate := mkHState { hc_cache : text; hc_off : bool }.
(** helpers/homedir/homedir.go:25-52 *)
Definition home_Dir (h : host) (s : hstate) : (text + home_error) * hstate :=
  if negb (hc_off s) && negb (is_empty (hc_cache s)) then (inl (hc_cache s), s)
  else match (match hs_sys h with Windows => dirWindows h | _ => dirUnix h end) with
       | inl r => (inl r, mkHState r (hc_off s))
       | inr e => (inr e, s)
       end.
(** helpers/homedir/homedir.go:82-86 *)
Definition home_Reset (s : hstate) : hstate := mkHState [] (hc_off s).

(** path/filepath Clean of Unix, element by element: empty ones and "." are left out, ".."
    takes back the one before, if there is one; at the root it is left out.  [st]: the
    elements kept, the last first *)
Definition dotdot : text := [46; 46].
Fixpoint clean_loop (rooted : bool) (st : list text) (ps : list text) : list text :=
  match ps with
  | [] => st
  | p :: r =>
    if is_empty p || text_eqb p [46] then clean_loop rooted st r
    else if text_eqb p dotdot then
      match st with
      | x :: st' => if text_eqb x dotdot then clean_loop rooted (p :: st) r else clean_loop rooted st' r
      | [] => if rooted then clean_loop rooted [] r else clean_loop rooted [p] r
      end
    else clean_loop rooted (p :: st) r
  end.
(** strings.Join with "/" *)
Fixpoint join (l : list text) : text :=
  match l with
  | [] => []
  | [p] => p
  | p :: r => p ++ 47 :: join r
  end.
Definition Clean (path : text) : text :=
  let rooted := match path with c :: _ => c =? 47 | [] => false end in
  let out := join (rev (clean_loop rooted [] (split 47 path))) in
  if rooted then 47 :: out else if is_empty out then [46] else out.
(** path/filepath Join of two elements *)
Definition Join (a b : text) : text :=
  if negb (is_empty a) then Clean (a ++ 47 :: b) else if negb (is_empty b) then Clean b else [].
(** helpers/homedir/homedir.go:57-76, on Unix *)
Definition home_Expand (h : host) (path : text) (s : hstate) : (text + home_error) * hstate :=
  match path with
  | [] => (inl path, s)
  | c :: rest =>
    if negb (c =? 126) then (inl path, s)
    else if (match rest with x :: _ => negb (x =? 47) && negb (x =? 92) | [] => false end) then (inr HUser, s)
    else match home_Dir h s with
         | (inl dir, s) => (inl (Join dir rest), s)
         | (inr e, s) => (inr e, s)
         end
  end.
