(** C153: the home directory, where the command line tool looks for its configuration. *)
From Coq Require Import String.
From Verif Require Import ModelHome SpecHome ProofsHome.
Close Scope string_scope.
Open Scope list_scope.
Open Scope Z_scope.

(** The environment variable has precedence on all systems. *)
Theorem c153_variable_partial : forall h s, forgetful s -> var h (home_var h) <> [] -> fst (home_Dir h s) = inl (var h (home_var h)).
Proof. exact by_variable. Qed.
Print Assumptions c153_variable_partial.
(** Without it, the directory is that of the user's line of the password file, whatever
    the other fields are and whatever white space there is around it … *)
Theorem c153_passwd_partial : forall h s name pw uid gid gecos dir shell, forgetful s -> hs_sys h = OtherUnix \/ hs_sys h = Plan9 -> var h (home_var h) = [] ->
  Forall (no 58) [name; pw; uid; gid; gecos; dir] -> hs_getent h = RunOk (passwd name pw uid gid gecos dir shell) -> fst (home_Dir h s) = inl dir.
Proof. exact by_passwd. Qed.
Print Assumptions c153_passwd_partial.
(** … or what dscl tells on a Mac, or the shell, if the others have run and tell nothing
    (on a Mac also if dscl has not run) … *)
Theorem c153_command_partial : forall h s d out, forgetful s -> hs_sys h <> Windows -> var h (home_var h) = [] -> padded d out ->
  (hs_sys h = Darwin /\ (hs_dscl h = RunOk out \/ (hs_dscl h = RunMissing \/ hs_dscl h = RunFailed \/ blank (hs_dscl h)) /\ hs_shell h = RunOk out))
  \/ (hs_sys h <> Darwin /\ blank (hs_getent h) /\ hs_shell h = RunOk out) -> fst (home_Dir h s) = inl d.
Proof. exact by_command. Qed.
Print Assumptions c153_command_partial.
(** … and on Windows that of the profile, or the drive and path, if both are set. *)
Theorem c153_windows_partial : forall h s, forgetful s -> hs_sys h = Windows -> var h sHOME = [] ->
  fst (home_Dir h s) = if list_eq_dec Z.eq_dec (var h sUSERPROFILE) [] then
    if list_eq_dec Z.eq_dec (var h sHOMEDRIVE) [] then inr HVariables else if list_eq_dec Z.eq_dec (var h sHOMEPATH) [] then inr HVariables
    else inl (var h sHOMEDRIVE ++ var h sHOMEPATH) else inl (var h sUSERPROFILE).
Proof. exact by_windows. Qed.
Print Assumptions c153_windows_partial.
(** What was found is remembered, whatever changes and is called, until Reset. *)
Theorem c153_remembered_partial : (forall h s d cs h', hc_off s = false -> fst (home_Dir h s) = inl d -> d <> [] -> Forall keeps cs ->
  fst (home_Dir h' (calls cs (snd (home_Dir h s)))) = inl d) /\ forall s, forgetful (home_Reset s).
Proof. exact (conj remembered reset_forgets). Qed.
Print Assumptions c153_remembered_partial.
(** Expand of a path in the home directory leads where the path leads from there, for all
    paths, with empty elements, dots and double dots; the result is absolute and has none
    of them. *)
Theorem c153_expand_partial : forall h s hs ps, fst (home_Dir h s) = inl (from_root hs) -> Forall name_ok hs -> Forall (no 47) ps ->
  fst (home_Expand h (126 :: slashed ps) s) = inl (from_root (fold_left go ps hs)) /\ Forall name_ok (fold_left go ps hs).
Proof. exact expands. Qed.
Print Assumptions c153_expand_partial.
(** If the home directory is relative, whatever elements it has, the result is relative to
    the same directory, with double dots at its beginning only, and "." if it is this. *)
Theorem c153_relative_partial : forall h s p hs ps, fst (home_Dir h s) = inl (p ++ slashed hs) -> p <> [] -> Forall (no 47) (p :: hs ++ ps) ->
  fst (home_Expand h (126 :: slashed ps) s) = inl (from_here (fold_left go_here (p :: hs ++ ps) (O, [])))
  /\ Forall name_ok (snd (fold_left go_here (p :: hs ++ ps) (O, []))).
Proof. exact expands_here. Qed.
Print Assumptions c153_relative_partial.
(** Other paths are left as they are, and those of other users are refused. *)
Theorem c153_others_partial : (forall h s p, hd 0 p <> 126 -> home_Expand h p s = (inl p, s)) /\
  forall h s c p, c <> 47 -> c <> 92 -> home_Expand h (126 :: c :: p) s = (inr HUser, s).
Proof. exact (conj untouched of_others). Qed.
Print Assumptions c153_others_partial.

(** The claim: Dir gives a directory, or an error if nothing tells one.  It does not hold:
    without the program getent there is an error although the shell would tell … *)
Definition hx_host (getent : run_result) : host := mkHost OtherUnix (fun _ => []) RunMissing getent (RunOk (txt "/home/joe"%string ++ [10])).
Theorem c153_shell_refuted : exists h, hs_getent h = RunMissing /\ by_shell h = inl (txt "/home/joe"%string) /\ forall s, forgetful s -> fst (home_Dir h s) = inr HCommand.
Proof.
  exists (hx_host RunMissing). split; [reflexivity|]. split; [vm_compute; reflexivity|]. intros s F. rewrite dir_forgetful by exact F. reflexivity.
Qed.
Print Assumptions c153_shell_refuted.
(** … and an empty field gives no directory and no error, with which paths in the home
    directory lead to the root. *)
Theorem c153_empty_refuted : exists h, forall s, forgetful s -> fst (home_Dir h s) = inl [] /\ fst (home_Expand h (txt "~/.baccli.yaml"%string) s) = inl (txt "/.baccli.yaml"%string).
Proof.
  exists (hx_host (RunOk (passwd (txt "joe"%string) [120] [49] [49] [] [] [] ++ [10]))). intros s F.
  assert (D : fst (home_Dir (hx_host (RunOk (passwd (txt "joe"%string) [120] [49] [49] [] [] [] ++ [10]))) s) = inl []).
  { rewrite dir_forgetful by exact F. vm_compute. reflexivity. }
  split; [exact D|]. change (txt "~/.baccli.yaml"%string) with (126 :: txt "/.baccli.yaml"%string). unfold home_Expand. cbn [Z.eqb Pos.eqb negb txt map list_ascii_of_string].
  destruct (home_Dir _ s) as [[d|e] s']; [|discriminate D]. injection D as ->. vm_compute. reflexivity.
Qed.
Print Assumptions c153_empty_refuted.

(** the hypotheses above are met *)
Definition hx_line : text := passwd (32 :: txt "joe"%string) [120] [49] [49] (txt "Joe,,,"%string) (txt "/home/joe"%string) (txt "/bin/sh"%string) ++ [10].
Example c153_ex_passwd : Forall (no 58) [32 :: txt "joe"%string; [120]; [49]; [49]; txt "Joe,,,"%string; txt "/home/joe"%string]
  /\ fst (home_Dir (hx_host (RunOk hx_line)) (mkHState [] false)) = inl (txt "/home/joe"%string).
Proof.
  split; [|vm_compute; reflexivity]. repeat constructor; cbn; intros H; repeat destruct H as [H|H]; try discriminate H; exact H.
Qed.
Example c153_ex_expand : from_root [txt "home"%string; txt "joe"%string] = txt "/home/joe"%string
  /\ fst (home_Expand (hx_host (RunOk hx_line)) (txt "~//a/./../../ann/b/"%string) (mkHState [] false)) = inl (txt "/home/ann/b"%string)
  /\ fst (home_Expand (hx_host (RunOk hx_line)) (txt "~"%string) (mkHState [] false)) = inl (txt "/home/joe"%string).
Proof. repeat split; vm_compute; reflexivity. Qed.
Example c153_ex_relative : fst (home_Expand (mkHost OtherUnix (fun _ => txt "a/../.."%string) RunMissing RunMissing RunMissing) (txt "~/../b/c"%string) (mkHState [] false)) = inl (txt "../../b/c"%string)
  /\ fst (home_Expand (mkHost OtherUnix (fun _ => txt "a"%string) RunMissing RunMissing RunMissing) (txt "~/.."%string) (mkHState [] false)) = inl (txt "."%string).
Proof. split; vm_compute; reflexivity. Qed.
Example c153_ex_remembered : fst (home_Dir (hx_host RunFailed) (calls [CallExpand (hx_host RunFailed) [126]] (snd (home_Dir (hx_host (RunOk hx_line)) (mkHState [] false))))) = inl (txt "/home/joe"%string)
  /\ fst (home_Dir (hx_host RunFailed) (home_Reset (snd (home_Dir (hx_host (RunOk hx_line)) (mkHState [] false))))) = inr HCommand.
Proof. split; vm_compute; reflexivity. Qed.
Example c153_ex_command : padded (txt "/home/joe"%string) (txt "/home/joe"%string ++ [10]) /\ blank (RunOk [10]) /\ fst (home_Dir (hx_host (RunOk [10])) (mkHState [] false)) = inl (txt "/home/joe"%string).
Proof.
  assert (B : Forall space [10]) by (constructor; [right; split; discriminate|constructor]).
  split; [exists [], [10]; split; [constructor|]; split; [exact B|]; split; [reflexivity|]; split; [discriminate|]; split; cbn; intros [H|[H1 H2]]; try discriminate H; apply H2; reflexivity|].
  split; [exact B|vm_compute; reflexivity].
Qed.
Example c153_ex_windows : fst (home_Dir (mkHost Windows (fun n => if text_eqb n sHOMEDRIVE then [67; 58] else if text_eqb n sHOMEPATH then [92; 106] else []) RunMissing RunMissing RunMissing) (mkHState [] true)) = inl [67; 58; 92; 106].
Proof. vm_compute. reflexivity. Qed.
