(** Model of the tables of btypes that are handed out to callers (property names, supported
    services), and of counting, listing and printing objects.  No proofs in this file. *)
From Coq Require Import String.
From Verif Require Export ModelCmd.
Close Scope string_scope.
Open Scope list_scope.
Open Scope Z_scope.

(** * Tables and their callers *)
(** a key of supportedList with the field Supported, which == compares too
    (btypes/services/services.go:12-17); [service] has the other three *)
Definition skey := (service * bool)%type.
Definition skey_eqb (a b : skey) : bool := svc_eqb (fst a) (fst b) && Bool.eqb (snd a) (snd b).
(** btypes/services/services.go:246-285 as a map; the field Supported is not set there *)
Definition serviceTable : list (skey * text) := map (fun x => ((x, false), sv_name x)) supportedList.
(** what a caller can do to a map: m[k] = v and delete(m, k) *)
Inductive map_edit (K V : Type) := MPut (k : K) (v : V) | MDelete (k : K).
Arguments MPut {K V}. Arguments MDelete {K V}.
Definition edit_map {K V} (eqb : K -> K -> bool) (e : map_edit K V) (m : list (K * V)) : list (K * V) :=
  match e with
  | MPut k v => mset eqb k v m
  | MDelete k => filter (fun x => negb (eqb k (fst x))) m
  end.
(** the maps of the process: propertyTypeMapping (btypes/property.go:546-560), supportedList,
    and those made by Keys, which the callers hold *)
Record tables := mkTables { tb_props : list (text * Z); tb_svcs : list (skey * text); tb_copies : list (list (text * Z)) }.
Definition tables0 : tables := mkTables propertyTypeMapping serviceTable [].
(** btypes/property.go:591-599 *)
Definition tb_Keys (t : tables) : list (text * Z) := fold_left (fun m x => mset text_eqb (fst x) (snd x) m) (tb_props t) [].
(** btypes/property.go:601-607 *)
Definition tb_Get (s : text) (t : tables) : Z * bool :=
  match mget text_eqb s (tb_props t) with Some v => (v, true) | None => (0, false) end.
(** btypes/services/services.go:301-307 *)
Definition tb_GetString (k : skey) (t : tables) : text :=
  match mget skey_eqb k (tb_svcs t) with
  | Some s => s
  | None => txt "Unknown ("%string ++ sv_name (fst k) ++ txt ")"%string
  end.
(** btypes/services/services.go:291-299; [order] is the map in its iteration order.  The
    pointer returned is to a variable of the call. *)
Definition tb_GetType (order : list (skey * text)) (s : text) : option skey :=
  match find (fun x => text_eqb s (snd x)) order with Some x => Some (fst x) | None => None end.
(** what a program does with them.  ListAll (btypes/services/services.go:287-289) returns the
    map of the package, so that an edit of its result is one of supportedList. *)
Inductive tcall := TKeys | TEditKeys (i : nat) (e : map_edit text Z) | TListAll | TEditListed (e : map_edit skey text).
Definition tstep (t : tables) (c : tcall) : tables :=
  match c with
  | TKeys => mkTables (tb_props t) (tb_svcs t) (tb_copies t ++ [tb_Keys t])
  | TEditKeys i e => mkTables (tb_props t) (tb_svcs t) (upd i (edit_map text_eqb e (nth i (tb_copies t) [])) (tb_copies t))
  | TListAll => t
  | TEditListed e => mkTables (tb_props t) (edit_map skey_eqb e (tb_svcs t)) (tb_copies t)
  end.
Definition trun (cs : list tcall) : tables := fold_left tstep cs tables0.

(** * Objects of a device *)
(** objectlist.go:75-83, one entry *)
Definition om_put (t i : Z) (o : object) (om : objectMap) : objectMap :=
  mset Z.eqb t (mset Z.eqb i o (match mget Z.eqb t om with Some s => s | None => [] end)) om.
(** objectlist.go:75-83, all entries *)
Definition all_put (ps : list (Z * Z * object)) : objectMap := fold_left (fun om p => om_put (fst (fst p)) (snd (fst p)) (snd p) om) ps [].
(** btypes/object_map.go:8-17 *)
Definition om_Len (om : objectMap) : Z := fold_left (fun c x => fold_left (fun c _ => c + 1) (snd x) c) om 0.
(** btypes/device.go:100-108 *)
Definition ObjectSlice (om : objectMap) : list object :=
  fold_left (fun l x => fold_left (fun l y => l ++ [snd y]) (snd x) l) om [].
(** btypes/object.go:116-118 *)
Definition oid_String (o : object_id) : text :=
  txt "Instance: "%string ++ sprint_d (oid_inst o) ++ txt " Type: "%string ++ type_string (oid_type o).
