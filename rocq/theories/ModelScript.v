(** * Functions that make several requests, on a client that others use as well

    [ModelClient.Objects] and the functions below it are sequences of requests, each
    depending on the results of those before; a [script] is such a sequence without the
    answers.  [SpecScript] says what it means that a goroutine performs it while others
    use the same client. *)
From Verif Require Import ModelClient ModelSystem.
Import ListNotations.
Open Scope Z_scope.

Inductive script (A : Type) : Type :=
| SEnd (r : outcome A)                                        (* returns or panics *)
| SCall (rq : request) (k : outcome answer -> script A).      (* makes a request *)
Arguments SEnd {A} r.
Arguments SCall {A} rq k.

(** as [cbind]: errors are wrapped and returned, objectlist.go:25-27, 55-57, 87-89, 101-103 *)
Definition sret {A B} (r : outcome A) (k : A -> script B) : script B :=
  match r with
  | COk a => k a
  | CErr e => SEnd (CErr (CWrap e))
  | CPanic => SEnd CPanic
  | CDiverge => SEnd CDiverge
  end.
Fixpoint sbind {A B} (s : script A) (k : A -> script B) : script B :=
  match s with
  | SEnd r => sret r k
  | SCall rq c => SCall rq (fun x => sbind (c x) k)
  end.
(** a ReadProperty call and a ReadMultiProperty call (a request answers with its own
    kind of answer) *)
Definition read_script (dev : device) (rp : property_data) : script property_data :=
  SCall (RqRead dev rp) (fun r => SEnd match r with
    | COk (AnRead x) => COk x | CErr e => CErr e | CDiverge => CDiverge | _ => CPanic end).
Definition multi_script (fuel : nat) (dev : device) (rp : multiple_property_data) : script (list object) :=
  SCall (RqReadMulti fuel dev rp) (fun r => SEnd match r with
    | COk (AnObjects l) => COk l | CErr e => CErr e | CDiverge => CDiverge | _ => CPanic end).

(** objectlist.go:8-35 *)
Definition objectListLen_script (dev : device) : script Z :=
  sbind (read_script dev (mkPD (mkObj [] [] (dv_id dev) [mkProp propObjectList 0 VNil 0])))
    (fun out => SEnd match o_props (pd_object out) with
                     | [] => CErr CNoData
                     | p :: _ => match pr_data p with VUint n => COk n | _ => CErr CWrongType end
                     end).
(** objectlist.go:37-71 *)
Definition objectsRange_script (fuel : nat) (dev : device) (start stop : Z) : script (list object_id) :=
  sbind (multi_script fuel dev (mkMPD [mkObj [] [] (dv_id dev) (range_props start stop)]))
    (fun objs => SEnd match objs with
                      | [] => CErr CNoData
                      | o :: _ => match ids_of (o_props o) with Some l => COk l | None => CErr CWrongType end
                      end).
(** objectlist.go:93-115 *)
Fixpoint read_chunks_script (fuel : nat) (dev : device) (cs : list (Z * Z)) (m : list (object_id * object))
  : script (list (object_id * object)) :=
  match cs with
  | [] => SEnd (COk m)
  | (start, stop) :: cs' =>
    sbind (objectsRange_script fuel dev start stop) (fun ids => read_chunks_script fuel dev cs' (objectCopy m ids))
  end.
(** objectlist.go:85-116 *)
Definition objectList_script (fuel : nat) (dev : device) : script (list (object_id * object)) :=
  sbind (objectListLen_script dev) (fun l =>
  match chunks (dv_maxapdu dev / readPropRequestSize) l with
  | RPanic => SEnd CPanic
  | ROk cs => sbind (read_chunks_script fuel dev cs []) (fun m => SEnd (COk m))
  end).
(** objectlist.go:118-170 *)
Definition objectInformation_script (fuel : nat) (dev : device) (objs : list object) (m : list (object_id * object))
  : script (list (object_id * object)) :=
  let keys := info_keys objs in
  sbind (multi_script fuel dev (info_request keys)) (fun rs =>
  SEnd (set_info (keys ++ repeat (mkOid 0 0) (length objs - length keys)) 0 rs m)).
(** objectlist.go:172-186 *)
Fixpoint all_info_script (n fuel : nat) (dev : device) (objs : list object) (m : list (object_id * object))
  : script (list (object_id * object)) :=
  match n with
  | O => SEnd (COk m)
  | S n' =>
    match objs with
    | [] => SEnd (COk m)
    | _ => sbind (objectInformation_script fuel dev (firstn 5 objs) m) (fun m => all_info_script n' fuel dev (skipn 5 objs) m)
    end
  end.
(** objectlist.go:193-203 *)
Definition Objects_script (fuel : nat) (order : list (object_id * object) -> list (object_id * object)) (dev : device)
  : script (list (object_id * object)) :=
  sbind (objectList_script fuel dev) (fun m =>
  let objs := map snd (order m) in
  all_info_script (length objs) fuel dev objs m).
