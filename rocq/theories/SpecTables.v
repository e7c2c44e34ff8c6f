(** * What the tables say after a program has used them *)
From Coq Require Import Permutation.
From Verif Require Import ModelTables SpecNet.
Open Scope Z_scope.

Definition skey_dec : forall a b : skey, {a = b} + {a <> b}.
Proof. repeat decide equality. Defined.
(** the last thing the callers have done to the entry of [k] in what ListAll gave: a text
    put there, or a deletion *)
Fixpoint done_to (k : skey) (cs : list tcall) : option (option text) :=
  match cs with
  | [] => None
  | c :: r =>
    match done_to k r, c with
    | Some x, _ => Some x
    | None, TEditListed (MPut k' v) => if skey_dec k k' then Some (Some v) else None
    | None, TEditListed (MDelete k') => if skey_dec k k' then Some None else None
    | None, _ => None
    end
  end.
(** programs that only look at it *)
Definition looks (c : tcall) : Prop := match c with TEditListed _ => False | _ => True end.
(** the name of [k], if no caller did anything: that of the standard service with its number
    at its place in the list of the standard *)
Definition own_name (k : skey) (s : text) : Prop :=
  snd k = false /\ sv_name (fst k) = s /\ 0 <= sv_index (fst k)
  /\ nth_error standard_services (Z.to_nat (sv_index (fst k))) = Some (s, sv_number (fst k)).
Definition named (cs : list tcall) (k : skey) (s : text) : Prop :=
  match done_to k cs with Some x => x = Some s | None => own_name k s end.
(** the last object put at a type and instance *)
Fixpoint last_put (ps : list (Z * Z * object)) (t i : Z) : option object :=
  match ps with
  | [] => None
  | (t', i', o) :: r =>
    match last_put r t i with
    | Some x => Some x
    | None => if (t =? t') && (i =? i') then Some o else None
    end
  end.
(** the same Go map in another iteration order *)
Definition same_map (a b : objectMap) : Prop := exists c, Permutation a c /\ Forall2 (fun x y => fst x = fst y /\ Permutation (snd x) (snd y)) c b.
