(** Proofs about ModelTypes: C58, C60-C64, C68, C69. *)
From Coq Require Import String Permutation Lia ZifyBool ZifyNat.
From Verif Require Import ModelNet SpecNet SpecWire SpecLayers SpecServices SpecObs SpecClient ProofsWire ProofsBits ProofsServiceProps ProofsRecv ProofsCall ProofsRoute.
Close Scope string_scope.
Import ListNotations.
Open Scope list_scope.
Open Scope Z_scope.

(** * byte sweeps *)

Lemma text_eqb_eq : forall a b, text_eqb a b = true <-> a = b.
Proof.
  induction a as [|x a IH]; destruct b as [|y b]; cbn; try (split; [discriminate|congruence]); [tauto|].
  rewrite andb_true_iff, IH, Z.eqb_eq. split; [intros [-> ->]; reflexivity|intro H; injection H as -> ->; auto].
Qed.
Lemma text_eqb_refl : forall a, text_eqb a a = true. Proof. intro. apply text_eqb_eq. reflexivity. Qed.

(** * decimal notation *)
Lemma digits_octet : forall n, is_byte n -> digits n = dec_octet n.
Proof.
  intros n H. apply text_eqb_eq.
  apply (sweep1 256 (fun n => text_eqb (digits n) (dec_octet n))); [vm_compute; reflexivity|unfold is_byte in H; lia].
Qed.
Lemma dec_field : forall n, is_byte n -> ip_field (dec_octet n) = Some n.
Proof.
  intros n H. assert (X : (match ip_field (dec_octet n) with Some m => m =? n | None => false end) = true).
  { apply (sweep1 256 (fun n => match ip_field (dec_octet n) with Some m => m =? n | None => false end)); [vm_compute; reflexivity|unfold is_byte in H; lia]. }
  destruct (ip_field (dec_octet n)) as [m|]; [|discriminate]. f_equal. lia.
Qed.
Lemma dec_chars : forall n c, is_byte n -> ~ (48 <= c <= 57) -> ~ In c (dec_octet n).
Proof.
  intros n c H Hc Hi. assert (X : forallb (fun x => (48 <=? x) && (x <=? 57)) (dec_octet n) = true).
  { apply (sweep1 256 (fun n => forallb (fun x => (48 <=? x) && (x <=? 57)) (dec_octet n))); [vm_compute; reflexivity|unfold is_byte in H; lia]. }
  rewrite forallb_forall in X. specialize (X _ Hi). lia.
Qed.
Lemma split_none : forall c a, ~ In c a -> split c a = [a].
Proof.
  intros c a. induction a as [|x a IH]; intro H; [reflexivity|]. cbn [split]. destruct (Z.eqb_spec x c) as [->|]; [elim H; left; reflexivity|].
  rewrite IH by (intro; apply H; right; assumption). reflexivity.
Qed.
Lemma split_app : forall c a b, ~ In c a -> split c (a ++ c :: b) = a :: split c b.
Proof.
  intros c a b. induction a as [|x a IH]; intro H; cbn [app split]; [rewrite Z.eqb_refl; reflexivity|].
  destruct (Z.eqb_spec x c) as [->|]; [elim H; left; reflexivity|]. rewrite IH by (intro; apply H; right; assumption). reflexivity.
Qed.
Lemma ip_cases : forall ip, is_ip ip -> exists a b c d, ip = [a; b; c; d] /\ is_byte a /\ is_byte b /\ is_byte c /\ is_byte d.
Proof.
  intros ip [H L]. destruct ip as [|a [|b [|c [|d [|]]]]]; try discriminate L.
  inversion_clear H as [|? ? Ha H1]. inversion_clear H1 as [|? ? Hb H2]. inversion_clear H2 as [|? ? Hc H3]. inversion_clear H3 as [|? ? Hd _].
  exists a, b, c, d. auto.
Qed.
Lemma parse4_dotted : forall ip, is_ip ip -> parseIPv4 (spec_dotted ip) = Some ip.
Proof.
  intros ip H. destruct (ip_cases ip H) as (a & b & c & d & -> & Ha & Hb & Hc & Hd).
  unfold parseIPv4, spec_dotted.
  rewrite !split_app by (apply dec_chars; [assumption|lia]). rewrite split_none by (apply dec_chars; [assumption|lia]).
  rewrite !dec_field by assumption. reflexivity.
Qed.
Lemma kind_skip : forall a b, ~ In 46 a -> ~ In 58 a -> ip_kind (a ++ b) = ip_kind b.
Proof.
  induction a as [|x a IH]; intros b H4 H6; [reflexivity|]. cbn [app ip_kind].
  destruct (Z.eqb_spec x 46) as [->|]; [elim H4; left; reflexivity|]. destruct (Z.eqb_spec x 58) as [->|]; [elim H6; left; reflexivity|].
  apply IH; intro; [apply H4|apply H6]; right; assumption.
Qed.
Lemma dotted_kind : forall ip, is_ip ip -> ip_kind (spec_dotted ip) = Some false.
Proof.
  intros ip H. destruct (ip_cases ip H) as (a & b & c & d & -> & Ha & Hb & Hc & Hd). unfold spec_dotted.
  rewrite kind_skip by (apply dec_chars; [assumption|lia]). reflexivity.
Qed.
Lemma parse_dotted : forall ip, is_ip ip -> ParseIP (spec_dotted ip) = Some ip.
Proof. intros ip H. unfold ParseIP. rewrite dotted_kind by exact H. apply parse4_dotted. exact H. Qed.
Lemma dotted_spec : forall ip, is_ip ip -> dotted ip = spec_dotted ip.
Proof.
  intros ip H. destruct (ip_cases ip H) as (a & b & c & d & -> & Ha & Hb & Hc & Hd).
  unfold dotted, spec_dotted. rewrite !digits_octet by assumption. reflexivity.
Qed.
Lemma dotted_chars : forall ip c, is_ip ip -> ~ (48 <= c <= 57) -> c <> 46 -> ~ In c (spec_dotted ip).
Proof.
  intros ip x H Hx Hx6. destruct (ip_cases ip H) as (a & b & c & d & -> & Ha & Hb & Hc & Hd). unfold spec_dotted.
  intro Hi. repeat (apply in_app_or in Hi; destruct Hi as [Hi|[Hi|Hi]]; [revert Hi; apply dec_chars; assumption|lia|]).
  revert Hi. apply dec_chars; assumption.
Qed.

(** * C60: the address of a device *)
Lemma pack_ip : forall ip, is_ip ip -> pack32BinaryIP4 (spec_dotted ip) = ip.
Proof.
  intros ip H. unfold pack32BinaryIP4. rewrite parse_dotted by assumption.
  destruct (ip_cases ip H) as (a & b & c & d & -> & Ha & Hb & Hc & Hd). unfold is_byte in *. unfold ip4toInt. change (To4 [a; b; c; d]) with (Some [a; b; c; d]). cbn [fold_left].
  unfold be32, be16, u32. cbn [app]. repeat f_equal; lia.
Qed.
Lemma be16_octets : forall p, be16 p = octets 2 p.
Proof. intro p. unfold be16, octets. change (256 ^ Z.of_nat 1) with 256. change (256 ^ Z.of_nat 0) with 1. rewrite Z.div_1_r. reflexivity. Qed.
Lemma udp_of_octets : forall ip port net len ml adr, is_ip ip -> is_port port ->
  addr_UDPAddr (mkAddr net len ml (ip ++ octets 2 port) adr) = Some (ip, port).
Proof.
  intros ip port net len ml adr H Hp. destruct (ip_cases ip H) as (a & b & c & d & -> & Ha & Hb & Hc & Hd).
  rewrite <- be16_octets. unfold addr_UDPAddr, be16. cbn [app a_mac]. unfold is_port in Hp.
  replace (Z.lor (Z.shiftl (port / 256 mod 256) 8) (port mod 256)) with port. reflexivity.
  assert (E : (Z.lor (Z.shiftl (port / 256 mod 256) 8) (port mod 256) =? (port / 256 mod 256) * 256 + port mod 256) = true).
  { apply (sweep2 256 256 (fun h l => Z.lor (Z.shiftl h 8) l =? h * 256 + l)); [vm_compute; reflexivity| |]; lia. }
  lia.
Qed.
Lemma new_address : forall b ip, bd_ip b = spec_dotted ip -> is_ip ip -> is_port (bd_port b) -> 0 <= bd_net b < 65536 -> is_byte (bd_mac b) ->
  bd_addr (NewBDevice b) = mkAddr (bd_net b) 0 0 (ip ++ octets 2 (effective_port (bd_port b))) [bd_mac b].
Proof.
  intros b ip E H Hp Hn Hm. unfold NewBDevice. cbn [bd_addr]. unfold ip2bytes. rewrite E, pack_ip by assumption. rewrite be16_octets.
  unfold is_port, is_byte in *. unfold effective_port. f_equal; [unfold u16; lia| |unfold u8; f_equal; lia].
  do 2 f_equal. unfold u16. destruct (bd_port b =? 0); lia.
Qed.
Lemma invalid_ip_address : forall b, ParseIP (bd_ip b) = None -> is_port (bd_port b) ->
  addr_UDPAddr (bd_addr (NewBDevice b)) = Some ([0; 0; 0; 0], effective_port (bd_port b)).
Proof.
  intros b E Hp. unfold NewBDevice. cbn [bd_addr]. unfold ip2bytes, pack32BinaryIP4. rewrite E. rewrite be16_octets.
  change (be32 (u32 (ip4toInt None))) with [0; 0; 0; 0].
  replace (u16 (if bd_port b =? 0 then 47808 else bd_port b)) with (effective_port (bd_port b))
    by (unfold effective_port, u16, is_port in *; destruct (bd_port b =? 0); lia).
  apply udp_of_octets; [split; [repeat constructor; unfold is_byte; lia|reflexivity]|].
  unfold is_port, effective_port in *. destruct (bd_port b =? 0); lia.
Qed.

(** the frame of a request to such an address *)
Definition point_addr (ip : list Z) (port net mac : Z) : address := mkAddr net 0 0 (ip ++ octets 2 port) [mac].
Lemma point_header : forall ip port net mac me, 0 <= net < 65536 -> is_byte mac -> present me = false ->
  exists hdr, enc_NPDU (request_npdu (addr_SetLength (point_addr ip port net mac)) me) newEncoder = ROk (mkEnc hdr None)
  /\ zlen hdr <= 9 /\ forall apdu, spec_bvlc 10 (hdr ++ apdu) = point_frame net mac apdu.
Proof.
  intros ip port net mac me Hn Hm Hp. eexists. split; [|split].
  - unfold point_addr, addr_SetLength. cbn [a_adr a_net a_len a_maclen a_mac]. change (0 <? zlen [mac]) with true. cbv iota.
    apply header_exact; [exact Hp|cbn; lia|unfold is_byte; cbn; lia].
  - unfold lib_header. cbn [a_net a_len a_adr]. destruct (net =? 0); unfold zlen; cbn; lia.
  - intro apdu. unfold point_frame, local_frame, station_frame, lib_header. cbn [a_net a_len a_adr].
    unfold spec_npdu, spec_opt_addr, present, spec_addr. cbn [n_version n_netmsg n_dest n_src n_reply n_prio n_hop n_msgtype a_net a_adr a_len].
    destruct (net =? 0) eqn:E; [reflexivity|]. cbn [negb]. unfold bit_z. rewrite <- !app_assoc. reflexivity.
Qed.

Lemma own_absent : forall me, own me -> present me = false.
Proof. intros me (ip & port & _ & ->). reflexivity. Qed.
Lemma point_present : forall ip port net mac, is_ip ip -> is_port port ->
  addr_UDPAddr (addr_SetLength (point_addr ip port net mac)) = Some (ip, port) /\ zlen (a_adr (addr_SetLength (point_addr ip port net mac))) = 1.
Proof. intros ip port net mac H Hp. rewrite udp_setlength. split; [apply udp_of_octets; assumption|reflexivity]. Qed.
Lemma point_frame_of : forall ip port net mac hdr apdu k e, is_ip ip -> is_port port -> zlen (hdr ++ apdu) <= 65531 ->
  (forall apdu, spec_bvlc 10 (hdr ++ apdu) = point_frame net mac apdu) ->
  let dest := addr_SetLength (point_addr ip port net mac) in
  let g := mkDgram ip port (point_frame net mac apdu) in
  exchange e k dest (hdr ++ apdu) =
  if at_sent (ev_att e k g) then ([g], match at_reply (ev_att e k g) with Some p => inr p | None => inl CTimeout end) else ([g], inl CSend).
Proof.
  intros ip port net mac hdr apdu k e Hi Hp Hl HF dest g. destruct (point_present ip port net mac Hi Hp) as [HU HA]. fold dest in HU, HA.
  unfold exchange, send_dgram. rewrite HU, frame_small by exact Hl.
  unfold send_func. replace (0 <? zlen (a_adr dest)) with true by lia. rewrite HF. fold g. destruct (at_sent _); reflexivity.
Qed.
(** a read and a write through such an address *)
Lemma read_at : forall e me dev ip port net mac o p idx, dv_addr dev = point_addr ip port net mac ->
  is_ip ip -> is_port port -> 0 <= net < 65536 -> is_byte mac -> present me = false ->
  valid_oid o -> valid_property p -> in_u32 idx ->
  (ev_id e = None -> ReadProperty e me dev (request o p idx) = ([], CErr CNoId))
  /\ forall id, ev_id e = Some id -> is_byte id ->
     let g := mkDgram ip port (point_frame net mac (spec_read_request id o p idx)) in
     fst (ReadProperty e me dev (request o p idx)) = [g]
     /\ (at_sent (ev_att e 0 g) = false -> snd (ReadProperty e me dev (request o p idx)) = CErr CSend)
     /\ (at_sent (ev_att e 0 g) = true -> at_reply (ev_att e 0 g) = None -> snd (ReadProperty e me dev (request o p idx)) = CErr CTimeout)
     /\ (at_sent (ev_att e 0 g) = true -> forall c x, at_reply (ev_att e 0 g) = Some (PErr c x) -> snd (ReadProperty e me dev (request o p idx)) = CErr (CPdu c x))
     /\ (at_sent (ev_att e 0 g) = true -> forall vs, Forall supported vs -> at_reply (ev_att e 0 g) = Some (PBytes (spec_read_ack id o p idx vs)) ->
         snd (ReadProperty e me dev (request o p idx)) = COk (answer o p idx (one_or_list (map shown vs)))).
Proof.
  intros e me dev ip port net mac o p idx Ed Hi Hp Hn Hm Hme Ho Hpr Hx. split; [intro E; unfold ReadProperty; rewrite E; reflexivity|].
  intros id Hid Hb g. assert (Hp' : in_u32 p) by (red in Hpr; red; lia).
  destruct (point_header ip port net mac me Hn Hm Hme) as (hdr & EH & HL & HF).
  assert (E : ReadProperty e me dev (request o p idx) = rp_loop 1 0 e (addr_SetLength (point_addr ip port net mac)) (hdr ++ spec_read_request id o p idx) CNoData).
  { unfold ReadProperty. rewrite Hid, Ed, EH. replace (u8 id) with id by (unfold u8; unfold is_byte in Hb; lia). rewrite enc_read by assumption. reflexivity. }
  assert (HS : zlen (hdr ++ spec_read_request id o p idx) <= 65531).
  { rewrite zlen_app. unfold spec_read_request. rewrite zlen_app. pose proof (reference_len o p idx Hp' Hx). change (zlen (spec_request id 12)) with 4. lia. }
  pose proof (point_frame_of ip port net mac hdr (spec_read_request id o p idx) 0 e Hi Hp HS HF) as X. cbv zeta in X. fold g in X.
  rewrite E. cbn [rp_loop]. rewrite X. repeat apply conj.
  - destruct (at_sent _); [|reflexivity]. destruct (at_reply _) as [[b|c x]|]; try reflexivity.
    destruct (check_apdu _) as [[?|] ?]; [reflexivity|]. destruct (dec_ReadProperty _) as [[[?|] [?|]] ?| |]; reflexivity.
  - intros ->. reflexivity.
  - intros -> ->. reflexivity.
  - intros -> c x ->. reflexivity.
  - intros -> vs Hv ->. destruct (read_ack id o p idx vs Ho Hp' Hx Hv) as (d1 & d2 & E1 & E2 & E3). rewrite E1, E2, E3. reflexivity.
Qed.
Lemma write_len : forall id o p idx v prio, in_u32 p -> in_u32 idx -> is_byte prio -> zlen (lib_value (binary_pv o p) v) <= 65000 -> zlen (lib_write id o p idx v prio) <= 65100.
Proof.
  intros id o p idx v prio Hp Hi Hb Hv. unfold lib_write. rewrite !zlen_app. pose proof (reference_len o p idx Hp Hi).
  change (zlen (spec_request id 15)) with 4. change (zlen (spec_open 3)) with 1. change (zlen (spec_close 3)) with 1.
  assert (zlen (spec_priority 4 prio) <= 5); [|lia]. unfold spec_priority. destruct (prio =? 0); [unfold zlen; cbn; lia|].
  unfold is_byte in Hb. rewrite ctx_unsigned_len by (unfold in_u32; lia). pose proof (usize_le4 prio). unfold in_u32 in *. lia.
Qed.
Lemma write_at : forall e me dev ip port net mac o p idx v prio, dv_addr dev = point_addr ip port net mac ->
  is_ip ip -> is_port port -> 0 <= net < 65536 -> is_byte mac -> present me = false ->
  valid_oid o -> valid_property p -> in_u32 idx -> is_byte prio -> writable v ->
  (binary_pv o p = true -> v = VNull \/ exists n, v = VUint n) -> zlen (lib_value (binary_pv o p) v) <= 65000 ->
  (ev_id e = None -> WriteProperty e me dev (write_of o p idx v prio) = ([], CErr CNoId))
  /\ forall id, ev_id e = Some id -> is_byte id ->
     let g := mkDgram ip port (point_frame net mac (lib_write id o p idx v prio)) in
     (fst (WriteProperty e me dev (write_of o p idx v prio)) = [g] \/ fst (WriteProperty e me dev (write_of o p idx v prio)) = [g; g])
     /\ (at_sent (ev_att e 0 g) = true -> at_reply (ev_att e 0 g) = Some (PBytes (spec_simple_ack id 15)) ->
         WriteProperty e me dev (write_of o p idx v prio) = ([g], COk tt))
     /\ (at_sent (ev_att e 0 g) = true -> forall c x, at_reply (ev_att e 0 g) = Some (PErr c x) ->
         WriteProperty e me dev (write_of o p idx v prio) = ([g], CErr (CPdu c x))).
Proof.
  intros e me dev ip port net mac o p idx v prio Ed Hi Hp Hn Hm Hme Ho Hpr Hx Hb Hv Hbin Hlen. split; [intro E; unfold WriteProperty; rewrite E; reflexivity|].
  intros id Hid Hb' g. assert (Hp' : in_u32 p) by (red in Hpr; red; lia).
  destruct (point_header ip port net mac me Hn Hm Hme) as (hdr & EH & HL & HF).
  assert (E : WriteProperty e me dev (write_of o p idx v prio) = wp_loop 2 0 e (addr_SetLength (point_addr ip port net mac)) (hdr ++ lib_write id o p idx v prio) CNoData).
  { unfold WriteProperty. rewrite Hid, Ed, EH. replace (u8 id) with id by (unfold u8; unfold is_byte in Hb'; lia). rewrite enc_write by assumption. reflexivity. }
  assert (HS : zlen (hdr ++ lib_write id o p idx v prio) <= 65531).
  { rewrite zlen_app. pose proof (write_len id o p idx v prio Hp' Hx Hb Hlen). lia. }
  assert (X := fun k => point_frame_of ip port net mac hdr (lib_write id o p idx v prio) k e Hi Hp HS HF). cbv zeta in X. fold g in X.
  rewrite E. split; [|split].
  - cbn [wp_loop]. rewrite !X. destruct (at_sent (ev_att e 0 g)); [destruct (at_reply (ev_att e 0 g)) as [[b|c x]|]; [destruct (fst (check_apdu _))| |]|];
      try (left; reflexivity); right; destruct (at_sent (ev_att e 1 g)); try reflexivity;
      destruct (at_reply (ev_att e 1 g)) as [[b2|c2 x2]|]; try reflexivity; destruct (fst (check_apdu _)); reflexivity.
  - intros Hs Hr. cbn [wp_loop]. rewrite X, Hs, Hr. unfold spec_simple_ack, check_apdu, newDecoder. cbn. reflexivity.
  - intros Hs c x Hr. cbn [wp_loop]. rewrite X, Hs, Hr. reflexivity.
Qed.

(** * C62 *)
Lemma highest_none : forall p, HighestFloat32 p = None <-> Forall (fun s => s = None) (slots p).
Proof.
  intros []. unfold HighestFloat32, slots. cbn. split.
  - intro H. repeat match type of H with match ?x with Some _ => _ | None => _ end = None => destruct x; [discriminate H|] end.
    repeat constructor.
  - intro H. repeat match goal with H : Forall _ (_ :: _) |- _ => inversion_clear H as [|? ? Hz H']; subst; rename H' into H end. reflexivity.
Qed.
Fixpoint first_some (l : list (option Z)) : option Z := match l with [] => None | Some v :: _ => Some v | None :: l' => first_some l' end.
Lemma first_some_spec : forall l v, first_some l = Some v <-> exists a b, l = a ++ Some v :: b /\ Forall (fun s => s = None) a.
Proof.
  induction l as [|[w|] l IH]; intro v; cbn [first_some].
  - split; [discriminate|intros ([|] & ? & E & _); discriminate].
  - split.
    + intro E. injection E as ->. exists [], l. split; [reflexivity|constructor].
    + intros ([|x a] & b & E & F); [cbn in E; congruence|]. inversion_clear F. subst x. discriminate E.
  - rewrite IH. split.
    + intros (a & b & -> & F). exists (None :: a), b. split; [reflexivity|constructor; [reflexivity|assumption]].
    + intros ([|x a] & b & E & F); [discriminate|]. injection E as Ex E. subst x. exists a, b. split; [exact E|]. inversion F. assumption.
Qed.
Lemma highest_first : forall p, HighestFloat32 p = first_some (slots p).
Proof.
  intros []. unfold HighestFloat32, slots. cbn.
  repeat (match goal with |- match ?x with Some _ => _ | None => _ end = _ => destruct x; [reflexivity|] end). reflexivity.
Qed.
Lemma highest_some : forall p v, HighestFloat32 p = Some v <-> exists a b, slots p = a ++ Some v :: b /\ Forall (fun s => s = None) a.
Proof. intros p v. rewrite highest_first. apply first_some_spec. Qed.

(** * C63 *)
Lemma pow_split : forall e, 23 <= e -> 2 ^ e = 2 ^ (e - 23) * 8388608.
Proof. intros e H. change 8388608 with (2 ^ 23). rewrite <- Z.pow_add_r by lia. f_equal. lia. Qed.
Lemma f32_num_at : forall e m, 0 <= m < 8388608 -> f32_num ((e + 127) * 8388608 + m) = (8388608 + m) * 2 ^ e.
Proof.
  intros e m Hm. unfold f32_num. replace (((e + 127) * 8388608 + m) mod 8388608) with m by lia.
  replace (((e + 127) * 8388608 + m) / 8388608 - 127) with e by lia. reflexivity.
Qed.
Lemma f32_nearest : forall n, in_u32 n -> nearest_f32 n (f32_of_u32 n).
Proof.
  intros n Hn. unfold in_u32 in Hn. unfold nearest_f32. destruct (n =? 0) eqn:E0; [apply Z.eqb_eq in E0; subst; reflexivity|].
  assert (Hp : 0 < n) by lia. pose proof (Z.log2_spec n Hp) as [L1 L2]. set (e := Z.log2 n) in *.
  assert (He : 0 <= e) by apply Z.log2_nonneg.
  assert (He32 : e <= 31). { assert (e < 32); [|lia]. apply Z.log2_lt_pow2; [lia|]. change (2 ^ 32) with 4294967296. lia. }
  unfold f32_of_u32. replace (n <=? 0) with false by lia. fold e. cbv zeta.
  rewrite Z.pow_succ_r in L2 by lia. assert (He2 : 0 < 2 ^ e) by (apply Z.pow_pos_nonneg; lia).
  destruct (e <=? 23) eqn:E23.
  - assert (HP : 2 ^ e * 2 ^ (23 - e) = 8388608) by (rewrite <- Z.pow_add_r by lia; replace (e + (23 - e)) with 23 by lia; reflexivity).
    assert (0 < 2 ^ (23 - e)) by (apply Z.pow_pos_nonneg; lia).
    assert (Hm : 0 <= n * 2 ^ (23 - e) - 8388608 < 8388608) by nia.
    rewrite f32_num_at by exact Hm.
    replace ((8388608 + (n * 2 ^ (23 - e) - 8388608)) * 2 ^ e - n * 8388608) with 0.
    2:{ replace (8388608 + (n * 2 ^ (23 - e) - 8388608)) with (n * 2 ^ (23 - e)) by lia. rewrite <- HP. ring. }
    cbn [Z.abs]. split; [lia|]. split; [lia|]. intro X. lia.
  - set (s := e - 23). assert (Hs : 1 <= s) by (unfold s; lia). rewrite (pow_split e) in L1, L2 by lia. fold s in L1, L2.
    assert (HS : 2 ^ s = 2 * 2 ^ (s - 1)) by (rewrite <- Z.pow_succ_r by lia; f_equal; lia). set (h := 2 ^ (s - 1)) in *.
    assert (Hh : 0 < h) by (apply Z.pow_pos_nonneg; lia). set (S' := 2 ^ s) in *.
    pose proof (Z.div_mod n S' ltac:(lia)) as DM. pose proof (Z.mod_pos_bound n S' ltac:(lia)) as MB.
    set (q := n / S') in *. set (r := n mod S') in *.
    assert (Hq : 8388608 <= q < 16777216) by nia.
    rewrite (pow_split e) by lia. fold s. fold S'.
    assert (R : forall q', (q' = q /\ (r < h \/ (r = h /\ Z.odd q = false)) \/ q' = q + 1 /\ (h < r \/ (r = h /\ Z.odd q = true))) ->
      127 * 8388608 <= (e + 127) * 8388608 + (q' - 8388608) < 255 * 8388608
      /\ 2 * Z.abs (f32_num ((e + 127) * 8388608 + (q' - 8388608)) - n * 8388608) <= S' * 8388608
      /\ (2 * Z.abs (f32_num ((e + 127) * 8388608 + (q' - 8388608)) - n * 8388608) = S' * 8388608 -> Z.even ((e + 127) * 8388608 + (q' - 8388608)) = true)).
    { intros q' Hq'.
      assert (F : f32_num ((e + 127) * 8388608 + (q' - 8388608)) = q' * S' * 8388608).
      { destruct (Z.eq_dec q' 16777216) as [->|].
        - replace ((e + 127) * 8388608 + (16777216 - 8388608)) with ((e + 1 + 127) * 8388608 + 0) by lia.
          rewrite f32_num_at by lia. rewrite (pow_split (e + 1)) by lia. replace (e + 1 - 23) with (Z.succ s) by (unfold s; lia). rewrite Z.pow_succ_r by lia. fold S'. lia.
        - rewrite f32_num_at by lia. rewrite (pow_split e) by lia. fold s. fold S'. ring. }
      assert (P : Z.even ((e + 127) * 8388608 + (q' - 8388608)) = Z.even q').
      { replace ((e + 127) * 8388608 + (q' - 8388608)) with (q' + 2 * ((e + 126) * 4194304)) by lia. apply Z.even_add_mul_2. }
      rewrite F, P. split; [lia|].
      assert (A : 2 * Z.abs (q' * S' - n) <= S' /\ (2 * Z.abs (q' * S' - n) = S' -> Z.even q' = true)).
      { destruct Hq' as [[-> [C|[C1 C2]]]|[-> [C|[C1 C2]]]].
        - replace (q * S' - n) with (- r) by nia. split; [lia|intro; lia].
        - replace (q * S' - n) with (- r) by nia. split; [lia|]. intros _. rewrite <- Z.negb_odd, C2. reflexivity.
        - replace ((q + 1) * S' - n) with (S' - r) by nia. split; [lia|intro; lia].
        - replace ((q + 1) * S' - n) with (S' - r) by nia. split; [lia|]. intros _. rewrite Z.even_add, <- Z.negb_odd, C2. reflexivity. }
      replace (q' * S' * 8388608 - n * 8388608) with ((q' * S' - n) * 8388608) by ring.
      rewrite Z.abs_mul. change (Z.abs 8388608) with 8388608. destruct A as [A1 A2]. split; [lia|]. intro X. apply A2. lia. }
    apply R. destruct ((h <? r) || ((r =? h) && Z.odd q)) eqn:EC.
    + right. split; [reflexivity|]. apply orb_prop in EC. destruct EC as [EC|EC]; [left; lia|]. apply andb_prop in EC. right. split; [lia|tauto].
    + left. split; [reflexivity|]. apply orb_false_elim in EC. destruct EC as [EC1 EC2]. destruct (Z.eq_dec r h) as [->|]; [|left; lia].
      right. split; [reflexivity|]. rewrite Z.eqb_refl in EC2. exact EC2.
Qed.
Lemma pri_set_slots : forall i v p, (i < 16)%nat -> slots (pri_set i v p) = firstn i (slots p) ++ v :: skipn (S i) (slots p).
Proof. intros i v [] H. do 16 (destruct i as [|i]; [reflexivity|]). lia. Qed.
Lemma pri_set_over : forall i v p, (16 <= i)%nat -> pri_set i v p = p.
Proof. intros i v [] H. do 16 (destruct i as [|i]; [lia|]). reflexivity. Qed.
(** values the priority code understands *)
Lemma pri_loop_over : forall vs i p, (16 <= i)%nat -> Forall plain_slot vs -> pri_loop i vs p = ROk p.
Proof.
  induction vs as [|v vs IH]; intros i p Hi H; [reflexivity|]. inversion_clear H as [|? ? Hv Hs].
  destruct v; try contradiction; cbn [pri_loop]; rewrite pri_set_over by exact Hi; apply IH; try assumption; lia.
Qed.
Lemma slots_len : forall p, length (slots p) = 16%nat. Proof. intros []. reflexivity. Qed.
Lemma pri_loop_plain : forall vs i p, (i <= 16)%nat -> Forall plain_slot vs ->
  exists p', pri_loop i vs p = ROk p'
  /\ firstn i (slots p') = firstn i (slots p)
  /\ Forall2 slot_holds (firstn (16 - i) vs) (firstn (length (firstn (16 - i) vs)) (skipn i (slots p')))
  /\ skipn (i + length vs) (slots p') = skipn (i + length vs) (slots p).
Proof.
  induction vs as [|v vs IH]; intros i p Hi H.
  - exists p. rewrite firstn_nil. cbn. repeat split. constructor.
  - destruct (Nat.eq_dec i 16) as [->|Hne].
    { exists p. rewrite pri_loop_over by (try exact H; lia). cbn. repeat split. constructor. }
    inversion_clear H as [|? ? Hv Hs]. set (x := match v with VUint n => Some (f32_of_u32 n) | _ => None end).
    assert (E : pri_loop i (v :: vs) p = pri_loop (S i) vs (pri_set i x p)) by (destruct v; try contradiction; reflexivity).
    destruct (IH (S i) (pri_set i x p) ltac:(lia) Hs) as (p' & EP & F1 & F2 & F3). exists p'.
    rewrite pri_set_slots in F1, F3 by lia. pose proof (slots_len p) as L. pose proof (slots_len p') as L'.
    assert (LF : length (firstn i (slots p)) = i) by (rewrite firstn_length; lia).
    assert (G1 : firstn i (slots p') = firstn i (slots p)).
    { replace (firstn i (slots p')) with (firstn i (firstn (S i) (slots p'))) by (rewrite firstn_firstn; f_equal; lia). rewrite F1, firstn_firstn. replace (Nat.min i (S i)) with i by lia.
      rewrite firstn_app, LF. replace (i - i)%nat with 0%nat by lia. rewrite firstn_O, app_nil_r, firstn_firstn. f_equal. lia. }
    assert (G2 : skipn i (slots p') = x :: skipn (S i) (slots p')).
    { rewrite <- (firstn_skipn (S i) (slots p')) at 1. rewrite F1. rewrite skipn_app, firstn_app, LF. replace (S i - i)%nat with 1%nat by lia.
      rewrite (firstn_all2 (firstn i (slots p))) by lia. rewrite skipn_app, LF. rewrite (skipn_all2 (firstn i _)) by lia. cbn [app firstn].
      rewrite app_length, LF. cbn [length]. replace (i - i)%nat with 0%nat by lia. replace (i - (i + 1))%nat with 0%nat by lia. reflexivity. }
    split; [congruence|]. split; [exact G1|]. split.
    + rewrite G2. replace (16 - i)%nat with (S (16 - S i)) by lia. cbn [firstn length]. constructor; [|exact F2].
      destruct v; try contradiction; cbn; [exact I|]. apply f32_nearest, Hv.
    + replace (i + length (v :: vs))%nat with (S i + length vs)%nat by (cbn; lia). rewrite F3. rewrite skipn_app, LF.
      rewrite (skipn_all2 (firstn i _)) by lia. cbn [app]. replace (S i + length vs - i)%nat with (S (length vs)) by lia. rewrite skipn_cons, skipn_add. reflexivity.
Qed.
Lemma pri_loop_panics : forall vs i p, (exists v, In v vs /\ v <> VNull /\ forall n, v <> VUint n) -> pri_loop i vs p = RPanic.
Proof.
  induction vs as [|v vs IH]; intros i p (w & Hw & N & U); [contradiction|]. destruct Hw as [->|Hw].
  - destruct w; try reflexivity; [contradiction N; reflexivity|contradiction (U n); reflexivity].
  - destruct v; try reflexivity; cbn [pri_loop]; apply IH; exists w; auto.
Qed.
(** the record of the values of a property *)
Lemma build_plain : forall o p idx vs t, Forall plain_slot vs -> length vs <> 1%nat ->
  exists r, BuildFloat32 (answer o p idx (one_or_list vs)) t = ROk r
  /\ Forall2 slot_holds (firstn 16 vs) (firstn (length (firstn 16 vs)) (slots r))
  /\ Forall (fun s => s = None) (skipn (length vs) (slots r)).
Proof.
  intros o p idx vs t H Hn.
  assert (E : BuildFloat32 (answer o p idx (one_or_list vs)) t = pri_loop 0 vs pri0).
  { destruct vs as [|a [|b vs]]; [reflexivity|cbn in Hn; lia|reflexivity]. }
  destruct (pri_loop_plain vs 0 pri0 ltac:(lia) H) as (r & ER & _ & F2 & F3). exists r. rewrite E. split; [exact ER|]. split; [exact F2|].
  cbn [Nat.add] in F3. rewrite F3. apply Forall_forall. intros x Hx.
  assert (In x (slots pri0)) by (rewrite <- (firstn_skipn (length vs)); apply in_or_app; right; exact Hx).
  cbn in H0. intuition congruence.
Qed.
Lemma build_panics : forall o p idx vs t, length vs <> 1%nat -> (exists v, In v vs /\ v <> VNull /\ forall n, v <> VUint n) ->
  BuildFloat32 (answer o p idx (one_or_list vs)) t = RPanic.
Proof.
  intros o p idx vs t Hn H.
  assert (E : BuildFloat32 (answer o p idx (one_or_list vs)) t = pri_loop 0 vs pri0).
  { destruct vs as [|a [|b vs]]; [reflexivity|cbn in Hn; lia|reflexivity]. }
  rewrite E. apply pri_loop_panics, H.
Qed.

(** * C64 *)
Lemma svc_unique : forall a b, In a supportedList -> In b supportedList -> sv_name a = sv_name b -> a = b.
Proof.
  assert (X : forallb (fun a => forallb (fun b => if text_eqb (sv_name a) (sv_name b) then svc_eqb a b else true) supportedList) supportedList = true) by (vm_compute; reflexivity).
  intros a b Ha Hb E. rewrite forallb_forall in X. specialize (X a Ha). rewrite forallb_forall in X. specialize (X b Hb).
  rewrite E, text_eqb_refl in X. unfold svc_eqb in X. apply andb_prop in X. destruct X as [X X3]. apply andb_prop in X. destruct X as [X1 X2].
  destruct a, b. cbn in *. apply text_eqb_eq in X1. f_equal; [exact X1|lia|lia].
Qed.
Lemma svc_lookup : forall order s x, Permutation supportedList order -> In x supportedList -> sv_name x = s -> svc_GetType order s = Some x.
Proof.
  intros order s x HP Hx <-. unfold svc_GetType. destruct (find _ order) as [y|] eqn:E.
  - apply find_some in E. destruct E as [E1 E2]. apply text_eqb_eq in E2. f_equal. symmetry. apply svc_unique; [exact Hx| |exact E2].
    apply (Permutation_in _ (Permutation_sym HP) E1).
  - pose proof (find_none _ _ E x (Permutation_in _ HP Hx)) as N. cbn beta in N. rewrite text_eqb_refl in N. discriminate.
Qed.
Lemma svc_table : map (fun x => (sv_name x, sv_number x)) supportedList = standard_services.
Proof. vm_compute. reflexivity. Qed.
Lemma svc_known : forall order s bit, Permutation supportedList order -> In (s, bit) standard_services ->
  exists x, svc_GetType order s = Some x /\ sv_name x = s /\ sv_number x = bit /\ svc_GetString x = s.
Proof.
  intros order s bit HP H. rewrite <- svc_table in H. apply in_map_iff in H. destruct H as (x & E & Hx). injection E as E1 E2.
  exists x. split; [apply svc_lookup; assumption|]. split; [exact E1|]. split; [exact E2|].
  unfold svc_GetString. replace (existsb (svc_eqb x) supportedList) with true; [exact E1|]. symmetry. apply existsb_exists. exists x. split; [exact Hx|].
  unfold svc_eqb. rewrite text_eqb_refl, !Z.eqb_refl. reflexivity.
Qed.
Lemma svc_unknown : forall order s, Permutation supportedList order -> ~ In s (map fst standard_services) -> svc_GetType order s = None.
Proof.
  intros order s HP H. unfold svc_GetType. destruct (find _ order) as [y|] eqn:E; [|reflexivity]. exfalso. apply find_some in E. destruct E as [E1 E2].
  apply text_eqb_eq in E2. apply H. rewrite <- svc_table, map_map. apply in_map_iff. exists y. cbn [fst]. split; [congruence|]. apply (Permutation_in _ (Permutation_sym HP) E1).
Qed.

(** * C69 *)
Lemma cut_none : forall c a, ~ In c a -> cut c a = None.
Proof.
  intros c a. induction a as [|x a IH]; intro H; [reflexivity|]. cbn [cut]. destruct (Z.eqb_spec x c) as [->|]; [elim H; left; reflexivity|].
  rewrite IH by (intro; apply H; right; assumption). reflexivity.
Qed.
Lemma cut_app : forall c a b, ~ In c a -> cut c (a ++ c :: b) = Some (a, b).
Proof.
  intros c a b. induction a as [|x a IH]; intro H; cbn [app cut]; [rewrite Z.eqb_refl; reflexivity|].
  destruct (Z.eqb_spec x c) as [->|]; [elim H; left; reflexivity|]. rewrite IH by (intro; apply H; right; assumption). reflexivity.
Qed.
Lemma parse_cidr : forall ip n, is_ip ip -> 0 <= n <= 32 -> ParseCIDR (spec_dotted ip ++ 47 :: dec_octet n) = Some (ip, n).
Proof.
  intros ip n H Hn. unfold ParseCIDR. rewrite cut_app by (apply dotted_chars; [exact H|lia|lia]). rewrite parse4_dotted by exact H.
  replace (8 * zlen ip) with 32 by (unfold zlen; rewrite (proj2 H); reflexivity).
  assert (X : (match dec_octet n with [] => false | _ => forallb is_digit (dec_octet n) && (number (dec_octet n) =? n) end) = true).
  { apply (sweep1 256 (fun n => match dec_octet n with [] => false | _ => forallb is_digit (dec_octet n) && (number (dec_octet n) =? n) end)); [vm_compute; reflexivity|lia]. }
  destruct (dec_octet n) as [|x l] eqn:E; [discriminate|]. rewrite <- E in *. apply andb_prop in X. destruct X as [X1 X2]. rewrite X1.
  replace (number (dec_octet n)) with n by lia. replace (n <=? 32) with true by lia. reflexivity.
Qed.
Definition bcast_octet (x n j : Z) : Z := Z.lor (Z.land x (mask_octet n j)) (Z.lxor 255 (mask_octet n j)).
Lemma bcast_bits : forall x n j i, is_byte x -> 0 <= n <= 32 -> 0 <= j < 4 -> 0 <= i < 8 ->
  Z.testbit (bcast_octet x n j) (7 - i) = if 8 * j + i <? n then Z.testbit x (7 - i) else true.
Proof.
  intros x n j i Hx Hn Hj Hi.
  assert (X : forallb (fun k => Bool.eqb (Z.testbit (bcast_octet x n (k / 8)) (7 - k mod 8)) (if k <? n then Z.testbit x (7 - k mod 8) else true)) (zrange 32) = true).
  { apply (sweep2 256 33 (fun x n => forallb (fun k => Bool.eqb (Z.testbit (bcast_octet x n (k / 8)) (7 - k mod 8)) (if k <? n then Z.testbit x (7 - k mod 8) else true)) (zrange 32)));
      [vm_compute; reflexivity|unfold is_byte in Hx; lia|lia]. }
  rewrite forallb_forall in X. specialize (X (8 * j + i) ltac:(apply zrange_in; lia)). apply Bool.eqb_prop in X.
  replace ((8 * j + i) / 8) with j in X by lia. replace ((8 * j + i) mod 8) with i in X by lia. exact X.
Qed.
Lemma bcast_byte : forall x n j, is_byte x -> 0 <= n <= 32 -> 0 <= j < 4 -> is_byte (bcast_octet x n j).
Proof.
  intros x n j Hx Hn Hj.
  assert (X : forallb (fun j => (0 <=? bcast_octet x n j) && (bcast_octet x n j <=? 255)) (zrange 4) = true).
  { apply (sweep2 256 33 (fun x n => forallb (fun j => (0 <=? bcast_octet x n j) && (bcast_octet x n j <=? 255)) (zrange 4)));
      [vm_compute; reflexivity|unfold is_byte in Hx; lia|lia]. }
  rewrite forallb_forall in X. specialize (X j ltac:(apply zrange_in; lia)). unfold is_byte. lia.
Qed.
(** the subnet's broadcast address, bit by bit *)
Lemma link_bcast : forall ip n, is_ip ip -> 0 <= n <= 32 ->
  subnet_bcast ip n (zip_with (fun a m => Z.lor a (Z.lxor 255 m)) (zip_with Z.land ip (mask 4 n)) (mask 4 n)).
Proof.
  intros ip n H Hn. destruct (ip_cases ip H) as (a & b & c & d & -> & Ha & Hb & Hc & Hd).
  change (zip_with _ _ _) with [bcast_octet a n 0; bcast_octet b n 1; bcast_octet c n 2; bcast_octet d n 3]. split.
  - split; [|reflexivity]. repeat apply Forall_cons; try apply Forall_nil; apply bcast_byte; try assumption; lia.
  - intros i Hi.
    assert (G : forall x j k, is_byte x -> 0 <= j < 4 -> (k < 8)%nat -> Z.testbit (bcast_octet x n j) (Z.of_nat (7 - k)) = if 8 * j + Z.of_nat k <? n then Z.testbit x (Z.of_nat (7 - k)) else true).
    { intros x j k Hx Hj Hk. replace (Z.of_nat (7 - k)) with (7 - Z.of_nat k) by lia. apply bcast_bits; try assumption; lia. }
    unfold ip_bit. pose proof (Nat.div_mod_eq i 8) as DM. pose proof (Nat.mod_upper_bound i 8 ltac:(lia)) as MB.
    set (k := (i mod 8)%nat) in *. set (j := (i / 8)%nat) in *. replace (Z.of_nat i) with (8 * Z.of_nat j + Z.of_nat k) by lia.
    assert (j < 4)%nat by lia. clearbody j k. do 4 (destruct j as [|j]; [cbn [nth]; apply G; try assumption; lia|]). lia.
Qed.
Lemma udp_of_link : forall ip port, is_ip ip -> is_port port -> addr_UDPAddr (UDPToAddress ip port) = Some (ip, port).
Proof.
  intros ip port H Hp. unfold UDPToAddress. cbv zeta. unfold is_port in Hp.
  replace [u8 (Z.shiftr (u16 port) 8); u8 (Z.land (u16 port) 255)] with (octets 2 port); [apply udp_of_octets; assumption|].
  rewrite <- be16_octets. unfold be16. rewrite Z.shiftr_div_pow2 by lia. change 255 with (Z.ones 8). rewrite Z.land_ones by lia. unfold u8, u16. change (2 ^ 8) with 256. f_equal; [lia|]. f_equal. lia.
Qed.
(** a link on "a.b.c.d/n" *)
Lemma link_opened : forall listen ip n port, is_ip ip -> 0 <= n <= 32 -> is_port port ->
  dataLink listen (spec_dotted ip ++ 47 :: dec_octet n) port
  = if listen (Some (effective_port port))
    then ROk (Some (mkLink (Some (effective_port port)) (UDPToAddress ip (effective_port port))
           (UDPToAddress (zip_with (fun a m => Z.lor a (Z.lxor 255 m)) (zip_with Z.land ip (mask 4 n)) (mask 4 n)) 47808)))
    else ROk None.
Proof.
  intros listen ip n port H Hn Hp. unfold dataLink. rewrite parse_cidr by assumption.
  change (if port =? 0 then DefaultPort else port) with (effective_port port).
  assert (HE : is_port (effective_port port)) by (unfold is_port, effective_port in *; destruct (port =? 0) eqn:E; lia).
  replace ((0 <=? effective_port port) && (effective_port port <=? 65535)) with true by (unfold is_port in HE; lia).
  destruct (ip_cases ip H) as (a & b & c & d & -> & Ha & Hb & Hc & Hd). reflexivity.
Qed.
Lemma dataLink_cidr : forall listen ip n port, is_ip ip -> 0 <= n <= 32 -> is_port port -> listen (Some (effective_port port)) = true ->
  exists l bc, dataLink listen (spec_dotted ip ++ 47 :: dec_octet n) port = ROk (Some l)
  /\ lk_port l = Some (effective_port port)
  /\ addr_UDPAddr (lk_my l) = Some (ip, effective_port port)
  /\ addr_UDPAddr (lk_bcast l) = Some (bc, 47808) /\ subnet_bcast ip n bc.
Proof.
  intros listen ip n port H Hn Hp HL. rewrite link_opened, HL by assumption.
  assert (HE : is_port (effective_port port)) by (unfold is_port, effective_port in *; destruct (port =? 0) eqn:E; lia).
  eexists. eexists. split; [reflexivity|]. cbn [lk_port lk_my lk_bcast]. pose proof (link_bcast ip n H Hn) as B.
  split; [reflexivity|]. split; [apply udp_of_link; assumption|]. split; [|exact B]. apply udp_of_link; [apply B|unfold is_port; lia].
Qed.
Lemma dataLink_busy : forall listen ip n port, is_ip ip -> 0 <= n <= 32 -> is_port port -> listen (Some (effective_port port)) = false ->
  dataLink listen (spec_dotted ip ++ 47 :: dec_octet n) port = ROk None.
Proof.
  intros listen ip n port H Hn Hp HL. rewrite link_opened, HL by assumption. reflexivity.
Qed.

(** * C68 *)
Lemma digits_digit : forall f n, 0 <= n -> forallb is_digit (digits_fuel f n) = true.
Proof.
  induction f as [|f IH]; intros n Hn; [reflexivity|]. cbn [digits_fuel]. destruct (n <? 10) eqn:E.
  - cbn [forallb]. unfold is_digit. lia.
  - rewrite forallb_app, IH by lia. cbn [forallb]. unfold is_digit. lia.
Qed.
Lemma number_app : forall a x, number (a ++ [x]) = 10 * number a + (x - 48).
Proof. intros a x. unfold number. rewrite fold_left_app. cbn [fold_left]. lia. Qed.
Lemma number_digits_fuel : forall f n, 0 <= n < 10 ^ Z.of_nat f -> number (digits_fuel f n) = n.
Proof.
  induction f as [|f IH]; intros n Hn; [cbn in *; lia|]. cbn [digits_fuel]. destruct (n <? 10) eqn:E.
  - unfold number. cbn [fold_left]. lia.
  - replace (Z.of_nat (S f)) with (Z.of_nat f + 1) in Hn by lia. rewrite Z.pow_add_r in Hn by lia. change (10 ^ 1) with 10 in Hn.
    rewrite number_app, IH; [lia|]. split; [lia|]. apply Z.div_lt_upper_bound; lia.
Qed.
Lemma number_digits : forall n, 0 <= n -> number (digits n) = n.
Proof.
  intros n Hn. unfold digits. apply number_digits_fuel. split; [exact Hn|].
  destruct (Z.eq_dec n 0) as [->|]; [apply Z.pow_pos_nonneg; lia|]. pose proof (Z.log2_spec n ltac:(lia)) as [_ L].
  pose proof (Z.log2_nonneg n). replace (Z.of_nat (S (Z.to_nat (Z.log2 n)))) with (Z.succ (Z.log2 n)) by lia.
  pose proof (Z.pow_le_mono_l 2 10 (Z.succ (Z.log2 n)) ltac:(lia)). lia.
Qed.
Lemma digits_ne : forall n, digits n <> [].
Proof. intro n. unfold digits. cbn [digits_fuel]. destruct (n <? 10); [discriminate|]. destruct (digits_fuel _ _); discriminate. Qed.
Lemma cidr_large : forall ip p, is_ip ip -> 32 < p -> ParseCIDR (spec_dotted ip ++ 47 :: sprint_d p) = None.
Proof.
  intros ip p H Hp. unfold ParseCIDR. rewrite cut_app by (apply dotted_chars; [exact H|lia|lia]). rewrite parse4_dotted by exact H.
  replace (8 * zlen ip) with 32 by (unfold zlen; rewrite (proj2 H); reflexivity).
  unfold sprint_d. replace (p <? 0) with false by lia. destruct (digits p) as [|x l] eqn:E; [contradiction (digits_ne p)|]. rewrite <- E, number_digits by lia.
  replace (p <=? 32) with false by lia. rewrite andb_false_r. reflexivity.
Qed.
Lemma cidr_small : forall n, 0 <= n <= 32 -> sprint_d n = dec_octet n.
Proof. intros n H. unfold sprint_d. replace (n <? 0) with false by lia. apply digits_octet. unfold is_byte. lia. Qed.
(** the client bound to an address: the port is taken for the mask and the mask for the port *)
Lemma client_from_ip : forall ifs listen ip subnet port maxpdu, is_ip ip -> 0 <= subnet <= 32 -> is_port port ->
  let cb := mkCB [] (spec_dotted ip) port subnet maxpdu in
  let p := effective_port port in
  (32 < p -> NewClient ifs listen cb = ROk (mkClient None (if maxpdu =? 0 then MaxAPDU else maxpdu), false))
  /\ (p <= 32 -> listen (Some (effective_port subnet)) = true ->
      exists l bc, NewClient ifs listen cb = ROk (mkClient (Some l) (if maxpdu =? 0 then MaxAPDU else maxpdu), true)
      /\ lk_port l = Some (effective_port subnet) /\ addr_UDPAddr (lk_my l) = Some (ip, effective_port subnet)
      /\ addr_UDPAddr (lk_bcast l) = Some (bc, 47808) /\ subnet_bcast ip p bc).
Proof.
  intros ifs listen ip subnet port maxpdu H Hs Hp cb p. unfold NewClient, cb. cbn [cb_iface cb_ip cb_port cb_subnet cb_maxpdu].
  change (if port =? 0 then DefaultPort else port) with p. unfold NewUDPDataLinkFromIP. split.
  - intro L. unfold dataLink. rewrite cidr_large by assumption. reflexivity.
  - intros L HL. assert (0 <= p) by (unfold p, effective_port, is_port in *; destruct (port =? 0); lia).
    rewrite cidr_small by lia. destruct (dataLink_cidr listen ip p subnet H ltac:(lia) ltac:(unfold is_port; lia) HL) as (l & bc & E & R).
    exists l, bc. rewrite E. split; [reflexivity|exact R].
Qed.
Lemma client_from_interface : forall ifs listen ip n port ipfield subnet maxpdu, is_ip ip -> 0 <= n <= 32 -> is_port port ->
  let cb := mkCB (spec_dotted ip ++ 47 :: dec_octet n) ipfield port subnet maxpdu in
  (listen (Some (effective_port port)) = true ->
   exists l bc, NewClient ifs listen cb = ROk (mkClient (Some l) (if maxpdu =? 0 then MaxAPDU else maxpdu), true)
   /\ lk_port l = Some (effective_port port) /\ addr_UDPAddr (lk_my l) = Some (ip, effective_port port)
   /\ addr_UDPAddr (lk_bcast l) = Some (bc, 47808) /\ subnet_bcast ip n bc)
  /\ (listen (Some (effective_port port)) = false ->
      NewClient ifs listen cb = ROk (mkClient None (if maxpdu =? 0 then MaxAPDU else maxpdu), false)).
Proof.
  intros ifs listen ip n port ipfield subnet maxpdu H Hn Hp cb.
  assert (HE : is_port (effective_port port)) by (unfold is_port, effective_port in *; destruct (port =? 0) eqn:E; lia).
  assert (EE : effective_port (effective_port port) = effective_port port) by (unfold effective_port; destruct (port =? 0) eqn:E; [reflexivity|rewrite E; reflexivity]).
  assert (E : NewUDPDataLink ifs listen (spec_dotted ip ++ 47 :: dec_octet n) (effective_port port) = dataLink listen (spec_dotted ip ++ 47 :: dec_octet n) (effective_port port)).
  { unfold NewUDPDataLink. replace (existsb (Z.eqb 47) (spec_dotted ip ++ 47 :: dec_octet n)) with true.
    2:{ symmetry. apply existsb_exists. exists 47. split; [apply in_or_app; right; left; reflexivity|reflexivity]. }
    change (if effective_port port =? 0 then DefaultPort else effective_port port) with (effective_port (effective_port port)). rewrite EE. reflexivity. }
  assert (EC : NewClient ifs listen cb = rbind (dataLink listen (spec_dotted ip ++ 47 :: dec_octet n) (effective_port port)) (fun l =>
    ROk (mkClient l (if maxpdu =? 0 then MaxAPDU else maxpdu), match l with Some _ => true | None => false end))).
  { rewrite <- E. unfold NewClient, cb. cbn [cb_iface cb_ip cb_port cb_subnet cb_maxpdu].
    change (if port =? 0 then DefaultPort else port) with (effective_port port).
    destruct (spec_dotted ip ++ 47 :: dec_octet n) eqn:T; [destruct (spec_dotted ip); discriminate T|reflexivity]. }
  rewrite EC. split.
  - intro HL. destruct (dataLink_cidr listen ip n (effective_port port) H Hn HE ltac:(rewrite EE; exact HL)) as (l & bc & EL & R). rewrite EE in R. rewrite EL. exists l, bc. split; [reflexivity|exact R].
  - intro HL. rewrite dataLink_busy; [reflexivity|assumption|assumption|exact HE|rewrite EE; exact HL].
Qed.

(** * C58 *)
Section Maps.
Context {K V : Type} (eqb : K -> K -> bool) (Heqb : forall a b, eqb a b = true <-> a = b).
Lemma eqb_same : forall k, eqb k k = true. Proof. intro k. apply Heqb. reflexivity. Qed.
Lemma mget_mset : forall k k' (v : V) m, mget eqb k (mset eqb k' v m) = if eqb k k' then Some v else mget eqb k m.
Proof.
  intros k k' v m. induction m as [|[a b] m IH]; cbn [mset mget]; [reflexivity|].
  destruct (eqb k' a) eqn:E1; cbn [mget].
  - apply Heqb in E1. subst a. destruct (eqb k k'); reflexivity.
  - rewrite IH. destruct (eqb k a) eqn:E2; [|reflexivity]. destruct (eqb k k') eqn:E3; [|reflexivity].
    apply Heqb in E2. apply Heqb in E3. subst. rewrite eqb_same in E1. discriminate.
Qed.
Lemma mset_keys : forall k v (m : list (K * V)) x, In x (map fst (mset eqb k v m)) <-> x = k \/ In x (map fst m).
Proof.
  intros k v m x. induction m as [|[a b] m IH]; cbn [mset map fst In]; [intuition|].
  destruct (eqb k a) eqn:E; cbn [map fst In].
  - apply Heqb in E. subst. intuition.
  - rewrite IH. intuition.
Qed.
Lemma mset_nodup : forall k v (m : list (K * V)), NoDup (map fst m) -> NoDup (map fst (mset eqb k v m)).
Proof.
  intros k v m. induction m as [|[a b] m IH]; intro H; cbn [mset map fst]; [repeat constructor; auto|].
  inversion_clear H as [|? ? Ha Hm]. destruct (eqb k a) eqn:E; cbn [map fst]; [constructor; assumption|].
  constructor; [|auto]. rewrite mset_keys. intros [->|C]; [rewrite eqb_same in E; discriminate|contradiction].
Qed.
Lemma mget_in : forall k v (m : list (K * V)), NoDup (map fst m) -> (mget eqb k m = Some v <-> In (k, v) m).
Proof.
  intros k v m. induction m as [|[a b] m IH]; intro H; cbn [mget In]; [split; [discriminate|contradiction]|].
  inversion_clear H as [|? ? Ha Hm]. destruct (eqb k a) eqn:E.
  - apply Heqb in E. subst a. split; [intro X; injection X as ->; left; reflexivity|].
    intros [X|X]; [congruence|]. exfalso. apply Ha. apply (in_map fst) in X. exact X.
  - rewrite IH by exact Hm. split; [auto|]. intros [X|X]; [|exact X]. injection X as -> ->. rewrite eqb_same in E. discriminate.
Qed.
Lemma mget_none : forall k (m : list (K * V)), mget eqb k m = None <-> ~ In k (map fst m).
Proof.
  intros k m. induction m as [|[a b] m IH]; cbn [mget map fst In]; [intuition|]. destruct (eqb k a) eqn:E.
  - apply Heqb in E. subst. split; [discriminate|intro X; elim X; left; reflexivity].
  - rewrite IH. split; [intros X [->|Y]; [rewrite eqb_same in E; discriminate|contradiction]|tauto].
Qed.
Lemma mget_perm : forall k (a b : list (K * V)), NoDup (map fst a) -> Permutation a b -> mget eqb k a = mget eqb k b.
Proof.
  intros k a b H P. assert (NoDup (map fst b)) by (apply (Permutation_NoDup (Permutation_map fst P) H)).
  destruct (mget eqb k a) as [v|] eqn:E.
  - symmetry. apply mget_in; [assumption|]. apply (Permutation_in _ P). apply mget_in; assumption.
  - symmetry. apply mget_none. apply mget_none in E. intro C. apply E. apply (Permutation_in _ (Permutation_sym (Permutation_map fst P)) C).
Qed.
End Maps.
Arguments mget_mset {K V}. Arguments mset_keys {K V}. Arguments mset_nodup {K V}. Arguments mget_in {K V}. Arguments mget_none {K V}. Arguments mget_perm {K V}.

Lemma add_all_get : forall sub m i, NoDup (map fst sub) ->
  mget Z.eqb i (add_all sub m) = match mget Z.eqb i sub with Some v => Some v | None => mget Z.eqb i m end.
Proof.
  unfold add_all. induction sub as [|[k v] sub IH]; intros m i H; [reflexivity|]. inversion_clear H as [|? ? Ha Hm]. cbn [fold_left fst snd mget].
  rewrite IH by exact Hm. rewrite (mget_mset Z.eqb Z.eqb_eq). destruct (mget Z.eqb i sub) as [w|] eqn:E; destruct (Z.eqb i k) eqn:E2; try reflexivity.
  apply Z.eqb_eq in E2. subst. exfalso. apply Ha. apply (mget_in Z.eqb Z.eqb_eq) in E; [|exact Hm]. apply (in_map fst) in E. exact E.
Qed.
Lemma add_all_nodup : forall sub m, NoDup (map fst m) -> NoDup (map fst (add_all sub m)).
Proof. unfold add_all. induction sub as [|[k v] sub IH]; intros m H; [exact H|]. cbn [fold_left]. apply IH. apply (mset_nodup Z.eqb Z.eqb_eq). exact H. Qed.

Definition inner_ok {A} (x : A * instances) : Prop := NoDup (map fst (snd x)).
(** a fold that regroups by a new key *)
Section Group.
Context {A K : Type} (eqb : K -> K -> bool) (Heqb : forall a b, eqb a b = true <-> a = b) (f : A -> K).
Definition group (m : list (A * instances)) (o : list (K * instances)) : list (K * instances) :=
  fold_left (fun o x => mset eqb (f (fst x)) (add_all (snd x) (match mget eqb (f (fst x)) o with Some s => s | None => [] end)) o) m o.
Definition look (o : list (K * instances)) (k : K) (i : Z) : option object := match mget eqb k o with Some s => mget Z.eqb i s | None => None end.
Definition grouped (o : list (K * instances)) : Prop := NoDup (map fst o) /\ Forall inner_ok o.
Lemma grouped_get : forall o k s, grouped o -> mget eqb k o = Some s -> NoDup (map fst s).
Proof. intros o k s [H1 H2] E. apply (mget_in eqb Heqb) in E; [|exact H1]. rewrite Forall_forall in H2. apply (H2 _ E). Qed.
Lemma mset_grouped : forall o k s, grouped o -> NoDup (map fst s) -> grouped (mset eqb k s o).
Proof.
  intros o k s [H1 H2] Hs. split; [apply (mset_nodup eqb Heqb), H1|]. clear H1. induction o as [|[a b] o IH]; cbn [mset].
  - repeat constructor. exact Hs.
  - inversion_clear H2 as [|? ? Hb Ho]. destruct (eqb k a); constructor; auto.
Qed.
Lemma look_step : forall o k s k' i, NoDup (map fst s) ->
  look (mset eqb k (add_all s (match mget eqb k o with Some s => s | None => [] end)) o) k' i =
  if eqb k' k then match mget Z.eqb i s with Some v => Some v | None => look o k' i end else look o k' i.
Proof.
  intros o k s k' i H. unfold look. rewrite (mget_mset eqb Heqb). destruct (eqb k' k) eqn:E; [|reflexivity]. apply Heqb in E. subst k'.
  rewrite add_all_get by exact H. destruct (mget Z.eqb i s); [reflexivity|]. destruct (mget eqb k o); reflexivity.
Qed.
Lemma group_grouped : forall m o, grouped o -> grouped (group m o).
Proof.
  unfold group. induction m as [|x m IH]; intros o H; [exact H|]. cbn [fold_left]. apply IH. apply mset_grouped; [exact H|].
  apply add_all_nodup. destruct (mget eqb (f (fst x)) o) eqn:E; [apply (grouped_get _ _ _ H E)|constructor].
Qed.
Lemma group_keys : forall m o k, In k (map fst (group m o)) <-> In k (map fst o) \/ exists x, In x m /\ f (fst x) = k.
Proof.
  unfold group. induction m as [|x m IH]; intros o k; cbn [fold_left In].
  - split; [auto|intros [H|(y & [] & _)]; exact H].
  - rewrite IH, (mset_keys eqb Heqb). split.
    + intros [[->|H]|(y & Hy & E)]; [right; exists x; auto|left; exact H|right; exists y; auto].
    + intros [H|(y & [<-|Hy] & E)]; [auto|left; left; auto|right; exists y; auto].
Qed.
(** what is found came from somewhere, and nothing gets lost *)
Lemma group_from : forall m o k i v, Forall inner_ok m -> look (group m o) k i = Some v ->
  look o k i = Some v \/ exists x, In x m /\ f (fst x) = k /\ mget Z.eqb i (snd x) = Some v.
Proof.
  unfold group. induction m as [|x m IH]; intros o k i v H E; [left; exact E|]. inversion_clear H as [|? ? Hx Hm]. cbn [fold_left] in E.
  destruct (IH _ _ _ _ Hm E) as [L|(y & Hy & R)]; [|right; exists y; split; [right; exact Hy|exact R]].
  rewrite look_step in L by exact Hx. match type of L with (if ?c then _ else _) = _ => destruct c eqn:EK end; [|left; exact L]. apply Heqb in EK.
  destruct (mget Z.eqb i (snd x)) eqn:EX; [|left; exact L]. right. exists x. split; [left; reflexivity|]. split; [auto|congruence].
Qed.
Lemma group_keeps : forall m o k i, Forall inner_ok m -> look o k i <> None -> look (group m o) k i <> None.
Proof.
  unfold group. induction m as [|x m IH]; intros o k i H N; [exact N|]. inversion_clear H as [|? ? Hx Hm]. cbn [fold_left]. apply IH; [exact Hm|].
  rewrite look_step by exact Hx. match goal with |- (if ?c then _ else _) <> _ => destruct c end; [|exact N]. destruct (mget Z.eqb i (snd x)); [discriminate|exact N].
Qed.
Lemma group_present : forall m o x i, Forall inner_ok m -> In x m -> mget Z.eqb i (snd x) <> None -> look (group m o) (f (fst x)) i <> None.
Proof.
  intros m o x i H Hx N. apply in_split in Hx. destruct Hx as (a & b & ->). unfold group. rewrite fold_left_app. cbn [fold_left].
  apply Forall_app in H. destruct H as [_ H]. inversion_clear H as [|? ? Hx Hb]. apply (group_keeps b); [exact Hb|].
  rewrite look_step by exact Hx. rewrite (eqb_same eqb Heqb). destruct (mget Z.eqb i (snd x)); [discriminate|contradiction].
Qed.
Lemma group_exact : forall m k i, Forall inner_ok m ->
  forall x, In x m -> f (fst x) = k -> (forall y, In y m -> f (fst y) = k -> y = x) -> look (group m []) k i = mget Z.eqb i (snd x).
Proof.
  intros m k i H x Hx Ek U. destruct (look (group m []) k i) as [v|] eqn:E.
  - destruct (group_from m [] k i v H E) as [L|(y & Hy & Ey & Ev)]; [discriminate|]. rewrite (U y Hy Ey) in Ev. congruence.
  - destruct (mget Z.eqb i (snd x)) eqn:EX; [|reflexivity]. exfalso. apply (group_present m [] x i H Hx); [congruence|]. rewrite Ek. exact E.
Qed.
Lemma group_absent : forall m k i, Forall inner_ok m -> (forall x, In x m -> f (fst x) <> k) -> look (group m []) k i = None.
Proof.
  intros m k i H N. destruct (look (group m []) k i) as [v|] eqn:E; [|reflexivity].
  destruct (group_from m [] k i v H E) as [L|(y & Hy & Ey & _)]; [discriminate|]. contradiction (N y Hy Ey).
Qed.
End Group.
Lemma known_or_not : forall t, In t known_types \/ ~ In t known_types.
Proof. intro t. destruct (in_dec Z.eq_dec t known_types); auto. Qed.
Lemma unknown_string : forall t, ~ In t known_types -> type_string t = txt "Unknown ("%string ++ sprint_d t ++ txt ")"%string.
Proof.
  intros t H. unfold type_string. replace (mget Z.eqb t objTypeMap) with (@None text); [reflexivity|]. symmetry.
  apply (mget_none Z.eqb Z.eqb_eq). intro C. apply H. cbn in C |- *. tauto.
Qed.
Lemma known_gettype : forall t, In t known_types -> GetType (type_string t) = t.
Proof.
  assert (X : forallb (fun t => GetType (type_string t) =? t) known_types = true) by (vm_compute; reflexivity).
  intros t H. rewrite forallb_forall in X. specialize (X t H). lia.
Qed.
Lemma unknown_gettype : forall t, ~ In t known_types -> GetType (type_string t) = 0.
Proof. intros t H. rewrite unknown_string by exact H. reflexivity. Qed.
Lemma gettype_name : forall s, GetType s <> 0 -> In (GetType s) known_types /\ s = type_string (GetType s).
Proof.
  intros s H. unfold GetType in *. destruct (mget text_eqb s objStrTypeMap) as [t|] eqn:E; [|contradiction].
  assert (ND : NoDup (map fst objStrTypeMap)).
  { assert (X : (fix nd (l : list text) := match l with [] => true | a :: l' => negb (existsb (text_eqb a) l') && nd l' end) (map fst objStrTypeMap) = true) by (vm_compute; reflexivity).
    revert X. generalize (map fst objStrTypeMap). induction l as [|a l IH]; intro X; [constructor|]. apply andb_prop in X. destruct X as [X1 X2]. constructor; [|apply IH, X2].
    intro C. apply negb_true_iff in X1. assert (existsb (text_eqb a) l = true) by (apply existsb_exists; exists a; split; [exact C|apply text_eqb_refl]). congruence. }
  apply (mget_in text_eqb text_eqb_eq) in E; [|exact ND].
  assert (X : forallb (fun x => existsb (Z.eqb (snd x)) known_types && text_eqb (fst x) (type_string (snd x))) objStrTypeMap = true) by (vm_compute; reflexivity).
  rewrite forallb_forall in X. specialize (X _ E). apply andb_prop in X. cbn [fst snd] in X. destruct X as [X1 X2]. split; [|apply text_eqb_eq, X2].
  apply existsb_exists in X1. destruct X1 as (y & Hy & Ey). apply Z.eqb_eq in Ey. congruence.
Qed.
Lemma string_known : forall t t', In t known_types -> type_string t' = type_string t -> t' = t.
Proof.
  intros t t' H E. destruct (known_or_not t') as [K|K].
  - rewrite <- (known_gettype t' K), E. apply known_gettype, H.
  - exfalso. rewrite unknown_string in E by exact K.
    assert (X : forallb (fun t => negb (match type_string t with 85 :: _ => true | _ => false end)) known_types = true) by (vm_compute; reflexivity).
    rewrite forallb_forall in X. specialize (X t H). rewrite <- E in X. discriminate X.
Qed.
Lemma marshal_group : forall om, marshal_map om = group text_eqb type_string om [].
Proof. reflexivity. Qed.
Lemma obj_at_look : forall om t i, obj_at om t i = look Z.eqb om t i.
Proof. reflexivity. Qed.
Lemma doc_keys : forall (c b : list (text * instances)), Forall2 (fun x y => fst x = fst y /\ Permutation (snd x) (snd y)) c b -> map fst c = map fst b.
Proof. intros c b F. induction F as [|x y c b [E _] F IH]; [reflexivity|]. cbn [map]. f_equal; assumption. Qed.
Lemma doc_same : forall a b, grouped a -> same_doc a b -> grouped b /\ forall k i, look text_eqb a k i = look text_eqb b k i.
Proof.
  intros a b [N I] (c & P & F).
  assert (Gc : grouped c).
  { split; [apply (Permutation_NoDup (Permutation_map fst P) N)|]. apply Forall_forall. intros x Hx. rewrite Forall_forall in I. apply I. apply (Permutation_in _ (Permutation_sym P) Hx). }
  assert (L1 : forall k i, look text_eqb a k i = look text_eqb c k i).
  { intros k i. unfold look. rewrite (mget_perm text_eqb text_eqb_eq k a c N P). reflexivity. }
  assert (K : map fst c = map fst b) by exact (doc_keys c _ F).
  destruct Gc as [Nc Ic].
  assert (R : Forall inner_ok b /\ forall k i, look text_eqb c k i = look text_eqb b k i).
  { clear - F Ic. induction F as [|x y c b [E1 E2] F IH]; [split; [constructor|reflexivity]|]. inversion_clear Ic as [|? ? Hx Hc]. destruct (IH Hc) as [IH1 IH2]. split.
    - constructor; [|exact IH1]. unfold inner_ok. apply (Permutation_NoDup (Permutation_map fst E2) Hx).
    - intros k i. specialize (IH2 k i). unfold look in *. destruct x as [kx vx], y as [ky vy]. cbn [fst snd mget] in *. subst ky.
      destruct (text_eqb k kx); [|exact IH2]. apply (mget_perm Z.eqb Z.eqb_eq); assumption. }
  destruct R as [Ib L2]. split; [split; [rewrite <- K; exact Nc|exact Ib]|]. intros k i. rewrite L1. apply L2.
Qed.
Lemma look_in : forall {K} (eqb : K -> K -> bool), (forall a b, eqb a b = true <-> a = b) ->
  forall o x i, grouped o -> In x o -> look eqb o (fst x) i = mget Z.eqb i (snd x).
Proof.
  intros K eqb H o [k s] i [N _] Hx. unfold look. apply (mget_in eqb H) in Hx; [|exact N]. cbn [fst snd]. rewrite Hx. reflexivity.
Qed.
Lemma look_some : forall {K} (eqb : K -> K -> bool), (forall a b, eqb a b = true <-> a = b) ->
  forall o k i v, grouped o -> look eqb o k i = Some v -> exists s, In (k, s) o /\ mget Z.eqb i s = Some v.
Proof.
  intros K eqb H o k i v [N _] E. unfold look in E. destruct (mget eqb k o) as [s|] eqn:G; [|discriminate]. exists s. split; [|exact E]. apply (mget_in eqb H); assumption.
Qed.
(** the document of a map, by type name *)
Lemma doc_known : forall om t i, wf_map om -> In t known_types -> look text_eqb (marshal_map om) (type_string t) i = obj_at om t i.
Proof.
  intros om t i [N I] H. rewrite marshal_group. rewrite obj_at_look. destruct (look Z.eqb om t i) as [v|] eqn:E.
  - destruct (look_some Z.eqb Z.eqb_eq om t i v (conj N I) E) as (s & Hs & Ev).
    rewrite (group_exact text_eqb text_eqb_eq type_string om (type_string t) i I (t, s) Hs eq_refl); [exact Ev|].
    intros [t' s'] Hy Ey. cbn [fst] in Ey. apply string_known in Ey; [|exact H]. subst t'. f_equal.
    apply (mget_in Z.eqb Z.eqb_eq) in Hs; [|exact N]. apply (mget_in Z.eqb Z.eqb_eq) in Hy; [|exact N]. congruence.
  - destruct (look text_eqb (group text_eqb type_string om []) (type_string t) i) as [v|] eqn:E2; [|reflexivity].
    destruct (group_from text_eqb text_eqb_eq type_string om [] _ i v I E2) as [L|(x & Hx & Ex & Ev)]; [discriminate|].
    apply string_known in Ex; [|exact H]. rewrite <- (look_in Z.eqb Z.eqb_eq om x i (conj N I) Hx), Ex in Ev. congruence.
Qed.
Lemma doc_from : forall om k i v, wf_map om -> look text_eqb (marshal_map om) k i = Some v -> exists t, type_string t = k /\ obj_at om t i = Some v.
Proof.
  intros om k i v [N I] E. rewrite marshal_group in E. destruct (group_from text_eqb text_eqb_eq type_string om [] _ i v I E) as [L|(x & Hx & Ex & Ev)]; [discriminate|].
  exists (fst x). split; [exact Ex|]. rewrite obj_at_look, (look_in Z.eqb Z.eqb_eq om x i (conj N I) Hx). exact Ev.
Qed.
Lemma doc_present : forall om t i, wf_map om -> obj_at om t i <> None -> look text_eqb (marshal_map om) (type_string t) i <> None.
Proof.
  intros om t i [N I] E. rewrite obj_at_look in E. destruct (look Z.eqb om t i) as [v|] eqn:L; [|contradiction].
  destruct (look_some Z.eqb Z.eqb_eq om t i v (conj N I) L) as (s & Hs & Ev). rewrite marshal_group.
  apply (group_present text_eqb text_eqb_eq type_string om [] (t, s) i I Hs). cbn [snd]. congruence.
Qed.
Lemma map_round_trip : forall om doc, wf_map om -> same_doc (marshal_map om) doc ->
  exists om', unmarshal_map (Some []) doc = ROk (Some om') /\ wf_map om'
  /\ (forall t i, t <> 0 -> In t known_types -> obj_at om' t i = obj_at om t i)
  /\ (forall t i, ~ In t known_types -> obj_at om' t i = None)
  /\ (forall i v, obj_at om' 0 i = Some v -> exists t, (t = 0 \/ ~ In t known_types) /\ obj_at om t i = Some v)
  /\ (forall t i, t = 0 \/ ~ In t known_types -> obj_at om t i <> None -> obj_at om' 0 i <> None)
  /\ (forall t, In t (map fst om') <-> exists t', In t' (map fst om) /\ t = if in_dec Z.eq_dec t' known_types then t' else 0).
Proof.
  intros om doc W D. pose proof W as [N I].
  assert (G0 : grouped (marshal_map om)) by (rewrite marshal_group; apply (group_grouped text_eqb text_eqb_eq); split; constructor).
  destruct (doc_same _ _ G0 D) as [G L]. pose proof G as [ND ID].
  exists (group Z.eqb GetType doc []).
  assert (G' : grouped (group Z.eqb GetType doc [])) by (apply (group_grouped Z.eqb Z.eqb_eq); split; constructor).
  assert (KD : forall k, In k (map fst doc) <-> exists t, In t (map fst om) /\ type_string t = k).
  { intro k. assert (E : In k (map fst doc) <-> In k (map fst (marshal_map om))).
    { destruct D as (c & P & F). assert (K : map fst c = map fst doc) by exact (doc_keys c _ F).
      rewrite <- K. split; apply Permutation_in; [apply Permutation_sym|]; apply Permutation_map, P. }
    rewrite E, marshal_group, (group_keys text_eqb text_eqb_eq). split.
    - intros [[]|(x & Hx & Ex)]. exists (fst x). split; [apply in_map, Hx|exact Ex].
    - intros (t & Ht & Et). right. apply in_map_iff in Ht. destruct Ht as (x & Ex & Hx). exists x. split; [exact Hx|congruence]. }
  split; [destruct doc; reflexivity|]. split; [exact G'|].
  split; [|split; [|split; [|split]]].
  - intros t i H0 Ht. rewrite obj_at_look.
    rewrite <- (doc_known om t i W Ht), L.
    destruct (look text_eqb doc (type_string t) i) as [v|] eqn:E.
    + destruct (look_some text_eqb text_eqb_eq doc _ i v G E) as (s & Hs & Ev).
      rewrite (group_exact Z.eqb Z.eqb_eq GetType doc t i ID (type_string t, s) Hs (known_gettype t Ht)); [exact Ev|].
      intros [k s'] Hy Ey. cbn [fst] in Ey. destruct (gettype_name k ltac:(congruence)) as [_ Ek]. rewrite Ey in Ek. subst k. f_equal.
      apply (mget_in text_eqb text_eqb_eq) in Hs; [|exact ND]. apply (mget_in text_eqb text_eqb_eq) in Hy; [|exact ND]. congruence.
    + destruct (look Z.eqb (group Z.eqb GetType doc []) t i) as [v|] eqn:E2; [|reflexivity].
      destruct (group_from Z.eqb Z.eqb_eq GetType doc [] _ i v ID E2) as [X|(x & Hx & Ex & Ev)]; [discriminate|].
      destruct (gettype_name (fst x) ltac:(congruence)) as [_ Ek]. rewrite Ex in Ek.
      rewrite <- (look_in text_eqb text_eqb_eq doc x i G Hx), Ek in Ev. congruence.
  - intros t i Ht. rewrite obj_at_look. apply (group_absent Z.eqb Z.eqb_eq GetType doc t i ID). intros x Hx E. subst t.
    destruct (Z.eq_dec (GetType (fst x)) 0) as [E0|E0]; [rewrite E0 in Ht; apply Ht; left; reflexivity|]. apply gettype_name in E0. tauto.
  - intros i v E. rewrite obj_at_look in E. destruct (group_from Z.eqb Z.eqb_eq GetType doc [] _ i v ID E) as [X|(x & Hx & Ex & Ev)]; [discriminate|].
    rewrite <- (look_in text_eqb text_eqb_eq doc x i G Hx), <- L in Ev. destruct (doc_from om _ i v W Ev) as (t & Et & Eo). exists t. split; [|exact Eo].
    rewrite <- Et in Ex. destruct (known_or_not t) as [K|K]; [left|right; exact K]. rewrite known_gettype in Ex by exact K. exact Ex.
  - intros t i Ht N0. pose proof (doc_present om t i W N0) as P. rewrite L in P. destruct (look text_eqb doc (type_string t) i) as [v|] eqn:E; [|contradiction].
    destruct (look_some text_eqb text_eqb_eq doc _ i v G E) as (s & Hs & Ev).
    assert (GT : GetType (type_string t) = 0) by (destruct Ht as [->|Ht]; [reflexivity|apply unknown_gettype, Ht]).
    rewrite obj_at_look, <- GT. apply (group_present Z.eqb Z.eqb_eq GetType doc [] (type_string t, s) i ID Hs). cbn [snd]. congruence.
  - intro t. rewrite (group_keys Z.eqb Z.eqb_eq). split.
    + intros [[]|(x & Hx & Ex)]. destruct (proj1 (KD (fst x)) (in_map fst _ _ Hx)) as (t' & Ht' & Et'). exists t'. split; [exact Ht'|].
      rewrite <- Et' in Ex. destruct (in_dec Z.eq_dec t' known_types) as [K|K]; [rewrite known_gettype in Ex by exact K|rewrite unknown_gettype in Ex by exact K]; auto.
    + intros (t' & Ht' & ->). right. pose proof (proj2 (KD (type_string t')) (ex_intro _ t' (conj Ht' eq_refl))) as Hk. apply in_map_iff in Hk.
      destruct Hk as (x & Ex & Hx). exists x. split; [exact Hx|]. rewrite Ex.
      destruct (in_dec Z.eq_dec t' known_types) as [K|K]; [apply known_gettype, K|apply unknown_gettype, K].
Qed.
Lemma map_known : forall om doc, wf_map om -> Forall (fun x => In (fst x) known_types) om -> same_doc (marshal_map om) doc ->
  exists om', unmarshal_map (Some []) doc = ROk (Some om') /\ wf_map om'
  /\ (forall t i, obj_at om' t i = obj_at om t i) /\ (forall t, In t (map fst om') <-> In t (map fst om)).
Proof.
  intros om doc W F D. destruct (map_round_trip om doc W D) as (om' & E & W' & H1 & H2 & H3 & H4 & H5). exists om'. split; [exact E|]. split; [exact W'|].
  assert (A : forall t i v, ~ In t known_types -> obj_at om t i <> Some v).
  { intros t i v N C. rewrite obj_at_look in C. destruct (look_some Z.eqb Z.eqb_eq om t i v W C) as (s & Hs & _). rewrite Forall_forall in F. exact (N (F _ Hs)). }
  split.
  - intros t i. destruct (known_or_not t) as [K|K].
    + destruct (Z.eq_dec t 0) as [->|N]; [|apply H1; assumption]. destruct (obj_at om' 0 i) as [v|] eqn:E1.
      * destruct (H3 i v E1) as (t & [->|N] & Et); [congruence|]. contradiction (A t i v N Et).
      * destruct (obj_at om 0 i) eqn:E2; [|reflexivity]. contradiction (H4 0 i (or_introl eq_refl)); congruence.
    + rewrite H2 by exact K. destruct (obj_at om t i) eqn:E2; [|reflexivity]. contradiction (A t i o K E2).
  - intro t. rewrite H5. split.
    + intros (t' & Ht' & ->). destruct (in_dec Z.eq_dec t' known_types) as [K|K]; [exact Ht'|]. exfalso. apply in_map_iff in Ht'. destruct Ht' as (x & <- & Hx).
      rewrite Forall_forall in F. exact (K (F x Hx)).
    + intro Ht. exists t. split; [exact Ht|]. destruct (in_dec Z.eq_dec t known_types) as [K|K]; [reflexivity|]. exfalso. apply in_map_iff in Ht. destruct Ht as (x & <- & Hx).
      rewrite Forall_forall in F. exact (K (F x Hx)).
Qed.
Lemma map_nil_target : forall doc, doc <> [] -> unmarshal_map None doc = RPanic.
Proof. intros [|x doc] H; [contradiction|reflexivity]. Qed.
Definition index_rule (bit : Z) : Z := if bit <=? 12 then bit else if bit <=? 23 then bit - 1 else bit - 3.
Lemma svc_indices : forallb (fun x => sv_index x =? index_rule (sv_number x)) supportedList = true.
Proof. reflexivity. Qed.
Lemma svc_index : forall order s bit x, Permutation supportedList order -> In (s, bit) standard_services -> svc_GetType order s = Some x ->
  sv_index x = if bit <=? 12 then bit else if bit <=? 23 then bit - 1 else bit - 3.
Proof.
  intros order s bit x HP HI E. destruct (svc_known order s bit HP HI) as (y & E2 & _ & <- & _). rewrite E in E2. injection E2 as <-.
  assert (In x supportedList).
  { apply (Permutation_in x (Permutation_sym HP)). unfold svc_GetType in E. apply find_some in E. tauto. }
  pose proof (proj1 (forallb_forall _ _) svc_indices x H). unfold index_rule in H0. lia.
Qed.
