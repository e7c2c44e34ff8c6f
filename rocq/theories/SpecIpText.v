(** Texts of IP addresses (RFC 4291, 2.2), and what is made of them. *)
From Verif Require Import ModelNet SpecWire SpecNet SpecRun.
Open Scope Z_scope.

(** * IPv6 texts *)
Definition hex_char (x : Z) : Prop := 48 <= x <= 57 \/ 65 <= x <= 70 \/ 97 <= x <= 102.
Definition hex_val (x : Z) : Z := if x <=? 57 then x - 48 else if x <=? 70 then x - 55 else x - 87.
(** a group: hexadecimal digits for a number of sixteen bits *)
Definition group_num (g : text) : Z := fold_left (fun v x => 16 * v + hex_val x) g 0.
Definition is_group (g : text) : Prop := g <> [] /\ Forall hex_char g /\ group_num g < 65536.
(** groups, perhaps followed by the last four octets in dotted notation *)
Definition tail_ok (t : option (list Z)) : Prop := match t with Some ip => is_ip ip | None => True end.
Definition written (gs : list text) (t : option (list Z)) : list text :=
  gs ++ match t with Some ip => [spec_dotted ip] | None => [] end.
Definition meant (gs : list text) (t : option (list Z)) : list Z :=
  flat_map (fun g => octets 2 (group_num g)) gs ++ match t with Some ip => ip | None => [] end.
(** with colons between them *)
Fixpoint colons (l : list text) : text :=
  match l with [] => [] | [a] => a | a :: r => a ++ 58 :: colons r end.
(** [s] is a text of the sixteen octets [ip]: eight groups, or fewer with "::" for one
    or more groups of zeros *)
Inductive ip6_text : text -> list Z -> Prop :=
| ip6_full : forall gs t, Forall is_group gs -> tail_ok t -> length (meant gs t) = 16%nat ->
    ip6_text (colons (written gs t)) (meant gs t)
| ip6_short : forall gs hs t, Forall is_group gs -> Forall is_group hs -> tail_ok t ->
    (length (meant gs None) + length (meant hs t) <= 14)%nat ->
    ip6_text (colons gs ++ 58 :: 58 :: colons (written hs t))
      (meant gs None ++ repeat 0 (16 - (length (meant gs None) + length (meant hs t))) ++ meant hs t).

(** * Addresses, masks *)
Definition ip4_text (s : text) (ip : list Z) : Prop := is_ip ip /\ s = spec_dotted ip.
Definition ip_text (s : text) (ip : list Z) : Prop := ip4_text s ip \/ ip6_text s ip.
(** decimal digits, leading zeros allowed *)
Definition decimal (s : text) (n : Z) : Prop :=
  s <> [] /\ Forall (fun x => 48 <= x <= 57) s /\ n = fold_left (fun v x => 10 * v + (x - 48)) s 0.
(** an address with the length of its network part *)
Definition cidr_text (s : text) (ip : list Z) (n : Z) : Prop :=
  exists a m, s = a ++ 47 :: m /\ ip_text a ip /\ decimal m n /\ n <= 8 * zlen ip.
(** an IPv6 address that is no IPv4 address in disguise *)
Definition pure6 (ip : list Z) : Prop := length ip = 16%nat /\ forall v4, ip <> mapped v4.
(** the port listened on; None = chosen by the system *)
Definition listened (port : Z) : option Z :=
  let p := effective_port port in if (0 <=? p) && (p <=? 65535) then Some p else None.
