(** What the properties of the discovery pipeline observe. *)
From Verif Require Import ModelDiscover.
(** the devices whose objects were read, in the order of the reads *)
Definition read_ok (ls : list plabel) : list ddev :=
  flat_map (fun l => match l with LRead _ (Some d) => [d] | _ => [] end) ls.
(** the value saved, once it was *)
Definition saved (s : pst) : option (list ddev) := match p_main s with MSaved rs => Some rs | _ => None end.
(** a device of that instance is listed *)
Definition listed (d : ddev) (rs : list ddev) : Prop := In (dd_inst d) (map dd_inst rs).
