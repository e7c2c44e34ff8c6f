(** * What the users of a client for requests and discovery observe *)
From Verif Require Import ModelClient ModelSystem ModelScan ModelWhole.
From Verif Require ModelTsm.
Open Scope Z_scope.

(** [lw] is what the requests of the run [l] see of it: the same calls, datagrams that
    arrived in it, the same steps *)
Definition seen_by_requests (l : list zaction) (lw : list waction) : Prop := forall a, In a lw ->
  match a with
  | WSpawn => In ZSpawn l
  | WCall i rq => In (ZRequest i rq) l
  | WArrive i src b => In (ZArrive i src b) l
  | WTx _ _ | WRet _ | WTsm _ => In (ZW a) l
  end.
(** [ly] is what the discovery calls of the run [l] see of it: the same calls, all the
    datagrams *)
Definition seen_by_scans (l : list zaction) (ly : list yaction) : Prop :=
  (forall i src b, In (ZArrive i src b) l -> In (YArrive i src b false) ly)
  /\ forall a, In a ly ->
  match a with
  | YSpawn => In ZSpawn l
  | YCall i q => In (ZScan i q) l
  | YArrive i src b _ => In (ZArrive i src b) l
  | YTx _ _ | YOffer _ | YCheck _ | YTake _ | YIn _ => In (ZY a) l
  end.
(** among the inputs of a run: a received datagram that answers transaction [id] with [p] *)
Definition answered_in (l : list zaction) (id : Z) (p : payload) : Prop :=
  exists i src b, In (ZArrive i src b) l /\ In (EDeliver id p) (fst (handleMsg (fun _ => true) src b)).
(** steps in which sync.Pool hands out an object that was used before *)
Definition pool_reuse (a : zaction) : bool :=
  match a with ZW (WTsm (ModelTsm.AGet _ (Some _))) => true | _ => false end.
(** steps of requests and deliveries in progress, of discovery calls and publications
    in progress: nothing new begins and no datagram arrives *)
Definition request_step (a : zaction) : bool := match a with ZW _ => true | _ => false end.
Definition scan_step (a : zaction) : bool := match a with ZY _ => true | _ => false end.
