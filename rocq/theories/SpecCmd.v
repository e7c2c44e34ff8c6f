(** What the properties of the command line tool observe. *)
From Coq Require Import String.
From Verif Require Import ModelCmd SpecWire SpecLayers SpecServices SpecObs SpecClient SpecNet.
Close Scope string_scope.
Open Scope list_scope.
Open Scope Z_scope.

(** the property identifiers of clause 21 that have a name *)
Definition standard_properties : list (text * Z) :=
  map (fun x => (txt (fst x), snd x))
  [("AllProperties", 8); ("Description", 28); ("FileSize", 42); ("FileType", 43); ("ModelName", 70); ("ObjectIdentifier", 75);
   ("ObjectList", 76); ("ObjectName", 77); ("ObjectReference", 78); ("ObjectType", 79); ("PresentValue", 85); ("PriorityArray", 87);
   ("Units", 117)]%string.
(** [s] is a decimal notation of [n] *)
Inductive numeral : text -> Z -> Prop :=
| num_one : forall d, 0 <= d <= 9 -> numeral [48 + d] d
| num_more : forall s n d, numeral s n -> 0 <= d <= 9 -> numeral (s ++ [48 + d]) (10 * n + d).
(** the text [s] asks for property [p] *)
Definition selects (s : text) (p : Z) : Prop := numeral s p \/ In (s, p) standard_properties.
(** a name or number that the tool cannot know: no standard name, no number *)
Definition unknown_name (s : text) : Prop :=
  (forall p, ~ In (s, p) standard_properties) /\ exists c, In c s /\ ~ 48 <= c <= 57 /\ c <> 43 /\ c <> 45.
(** the object the flags select: the object list belongs to the device object *)
Definition asked_object (f : cflags) (p : Z) : object_id := mkOid (if p =? 76 then 8 else cf_type f) (cf_inst f).
(** flags that select an existing kind of target: [ip], the object, the property [p] *)
Definition good_flags (f : cflags) (ip : list Z) (p : Z) : Prop :=
  cf_list f = false /\ cf_ip f = spec_dotted ip /\ is_ip ip /\ is_port (cf_port f) /\ 0 <= cf_net f < 65536 /\ is_byte (cf_mac f)
  /\ valid_oid (mkOid (cf_type f) (cf_inst f)) /\ valid_property p /\ in_u32 (cf_index f) /\ is_byte (cf_prio f) /\ selects (cf_prop f) p.
(** the frames of the command *)
Definition cmd_read (id : Z) (f : cflags) (ip : list Z) (p : Z) : datagram :=
  mkDgram ip (cf_port f) (point_frame (cf_net f) (cf_mac f) (spec_read_request id (asked_object f p) p (cf_index f))).
Definition cmd_write (id : Z) (f : cflags) (ip : list Z) (p : Z) (v : value) : datagram :=
  mkDgram ip (cf_port f) (point_frame (cf_net f) (cf_mac f) (lib_write id (asked_object f p) p (cf_index f) v (cf_prio f))).
(** results of the conversions are of their Go types *)
Definition good_conv (cv : conv) : Prop :=
  forall s x, in_u32 (fst (cv_f32 cv s)) /\ 0 <= fst (cv_f64 cv s) < 2 ^ 64 /\ in_u32 (cv_u32 cv x).
(** the value the command writes when the device answered [vs], and whether the text
    was understood; None = there is nothing to write *)
Definition converted (cv : conv) (vs : list sent) (s : text) : option (value * bool) :=
  match vs with
  | [SVal (VUint _)] | [SVal (VEnum _)] => Some (VUint (cv_u32 cv (fst (cv_f32 cv s))), snd (cv_f32 cv s))
  | [SVal (VReal _)] => Some (VReal (fst (cv_f32 cv s)), snd (cv_f32 cv s))
  | [SVal (VDouble _)] => Some (VDouble (fst (cv_f64 cv s)), snd (cv_f64 cv s))
  | [SVal (VString _)] => Some (VString s, true)
  | _ => None
  end.
(** the datagram carries a WriteProperty request *)
Definition is_write (g : datagram) : Prop :=
  exists ip port net mac id o p idx v prio, g = mkDgram ip port (point_frame net mac (lib_write id o p idx v prio)).
(** the datatype of an application-tagged value on the wire: its tag number *)
Definition wire_type (l : list Z) : Z := hd 0 l / 16.
(** the datatypes the tool can write *)
Definition number_or_text (v : value) : Prop :=
  match v with VUint _ | VEnum _ | VReal _ | VDouble _ | VString _ => True | _ => False end.
