(** Model of the encoder half of package encoding.  No proofs in this file. *)
From Verif Require Export Types.

(** Big-endian fixed-size integers: encoding/binary BigEndian
    (encoding/const.go EncodingEndian), for values already in range. *)
Definition be8 (v : Z) : list Z := [v mod 256].
Definition be16 (v : Z) : list Z := [(v / 256) mod 256; v mod 256].
Definition be32 (v : Z) : list Z :=
  [(v / 16777216) mod 256; (v / 65536) mod 256; (v / 256) mod 256; v mod 256].
Definition be64 (v : Z) : list Z := be32 (v / 4294967296) ++ be32 v.

(** encoding/encoder.go:16-22 *)
Definition newEncoder : enc := mkEnc [] None.

(** encoding/encoder.go:32-37, for data of fixed size already turned into bytes
    (binary.Write never fails on those; []byte of length 0 writes nothing). *)
Definition write (bs : list Z) (e : enc) : enc :=
  match eerr e with
  | Some _ => e
  | None => mkEnc (ebuf e ++ bs) None
  end.
Definition write_u8 (v : Z) (e : enc) : enc := write (be8 v) e.
Definition write_u16 (v : Z) (e : enc) : enc := write (be16 v) e.
Definition write_u32 (v : Z) (e : enc) : enc := write (be32 v) e.

(** encoding/general.go:5-15 *)
Definition valueLength (v : Z) : Z :=
  if v <? 256 then 1 else if v <? 65536 then 2 else if v <? 16777216 then 3 else 4.

(** encoding/general.go:29-74 tagMeta *)
Definition contextSpecificBit : Z := 8.
Definition meta_setContextSpecific (m : Z) : Z := Z.lor m contextSpecificBit.
Definition meta_setOpening (m : Z) : Z := Z.lor (meta_setContextSpecific m) 6.
Definition meta_setClosing (m : Z) : Z := Z.lor (meta_setContextSpecific m) 7.
Definition meta_isClosing (m : Z) : bool := Z.land m 7 =? 7.
Definition meta_isOpening (m : Z) : bool := Z.land m 6 =? 6.
Definition meta_isContextSpecific (m : Z) : bool := 0 <? Z.land m contextSpecificBit.
Definition meta_isExtendedValue (m : Z) : bool := Z.land m 7 =? 5.
Definition meta_isExtendedTagNumber (m : Z) : bool := Z.land m 240 =? 240.

(** encoding/types.go tagInfo *)
Record tagInfo := mkTag { tg_id : Z; tg_context : bool; tg_value : Z; tg_opening : bool; tg_closing : bool }.

(** encoding/encoder.go:59-70 *)
Definition enc_tagNum (meta num : Z) (e : enc) : enc :=
  if num <=? 14
  then write_u8 (Z.lor meta (u8 (Z.shiftl num 4))) e
  else write_u8 num (write_u8 (Z.lor meta 240) e).

(** encoding/encoder.go:46-50 *)
Definition openingTag (num : Z) (e : enc) : enc := enc_tagNum (meta_setOpening 0) num e.
(** encoding/encoder.go:52-56 *)
Definition closingTag (num : Z) (e : enc) : enc := enc_tagNum (meta_setClosing 0) num e.

(** encoding/encoder.go:72-115 *)
Definition enc_tag (tg : tagInfo) (e : enc) : enc :=
  let meta := 0 in
  let meta := if tg_context tg then meta_setContextSpecific meta else meta in
  let meta := if tg_opening tg then meta_setOpening meta else meta in
  let meta := if tg_closing tg then meta_setClosing meta else meta in
  let t := if tg_value tg <=? 4 then Z.lor meta (u8 (tg_value tg)) else Z.lor meta 5 in
  let e :=
    if tg_id tg <=? 14
    then write_u8 (Z.lor t (u8 (Z.shiftl (tg_id tg) 4))) e
    else write_u8 (tg_id tg) (write_u8 (Z.lor t 240) e) in
  if 4 <? tg_value tg then
    if tg_value tg <=? 253 then write_u8 (tg_value tg) e
    else if tg_value tg <=? 65535 then write_u16 (tg_value tg) (write_u8 254 e)
    else write_u32 (tg_value tg) (write_u8 255 e)
  else e.

(** a tag without opening/closing, application class / context class *)
Definition appTag (id v : Z) : tagInfo := mkTag id false v false false.
Definition ctxTag (id v : Z) : tagInfo := mkTag id true v false false.

(** encoding/encoder.go:119-123 *)
Definition objectId_u32 (ty inst : Z) : Z :=
  Z.lor (u32 (Z.shiftl (Z.land ty MaxObject) 22)) (Z.land inst MaxInstance).
Definition enc_objectId (o : object_id) (e : enc) : enc :=
  write_u32 (objectId_u32 (oid_type o) (oid_inst o)) e.

(** encoding/encoder.go:39-43 *)
Definition contextObjectID (num : Z) (o : object_id) (e : enc) : enc :=
  enc_objectId o (enc_tag (ctxTag num 4) e).

(** encoding/encoder.go:139-144 *)
Definition enc_unsigned24 (v : Z) (e : enc) : enc :=
  let e := write_u8 (u8 (Z.shiftr (Z.land v 16711680) 16)) e in
  let e := write_u8 (u8 (Z.shiftr (Z.land v 65280) 8)) e in
  write_u8 (u8 (Z.land v 255)) e.

(** encoding/encoder.go:146-157 *)
Definition enc_unsigned (v : Z) (e : enc) : enc :=
  if v <? 256 then write_u8 v e
  else if v <? 65536 then write_u16 v e
  else if v <? 16777216 then enc_unsigned24 v e
  else write_u32 v e.

(** encoding/encoder.go:134-136 *)
Definition enc_enumerated (v : Z) (e : enc) : enc := enc_unsigned v e.

(** encoding/encoder.go:129-132 *)
Definition contextUnsigned (num v : Z) (e : enc) : enc :=
  enc_unsigned v (enc_tag (ctxTag num (u32 (valueLength v))) e).
(** encoding/encoder.go:125-127 *)
Definition contextEnumerated (num v : Z) (e : enc) : enc := contextUnsigned num v e.

(** encoding/appdata.go:9-27 *)
Definition tagNull : Z := 0.
Definition tagBool : Z := 1.
Definition tagUint : Z := 2.
Definition tagInt : Z := 3.
Definition tagReal : Z := 4.
Definition tagDouble : Z := 5.
Definition tagOctetString : Z := 6.
Definition tagCharacterString : Z := 7.
Definition tagBitString : Z := 8.
Definition tagEnumerated : Z := 9.
Definition tagDate : Z := 10.
Definition tagTime : Z := 11.
Definition tagObjectID : Z := 12.
Definition maxTag : Z := 16.
(** encoding/appdata.go:30-36 *)
Definition realLen : Z := 4.
Definition doubleLen : Z := 8.
Definition objectIDLen : Z := 4.

(** encoding/appdata.go:41-50 *)
Definition enc_boolean (x : bool) (e : enc) : enc :=
  enc_tag (appTag tagBool (if x then 1 else 0)) e.

(** encoding/string.go:17-20; stringUTF8 = 0 *)
Definition enc_string (s : list Z) (e : enc) : enc := write s (write_u8 0 e).

Definition set_eerr (x : gerr) (e : enc) : enc := mkEnc (ebuf e) (Some x).

(** encoding/appdata.go:68-131.  The returned error is dropped by every caller
    in the package, so only the encoder state is returned (the same error is
    stored in e.err). *)
Definition enc_AppData (i : value) (typeBVBO : bool) (e : enc) : res enc :=
  match i with
  | VNull => ROk (enc_tag (appTag tagNull 0) e)
  | _ =>
    if typeBVBO then
      match i with
      | VUint v => ROk (enc_enumerated v (enc_tag (appTag tagEnumerated (u32 (valueLength v))) e))
      | _ => RPanic (* line 77: unchecked type assertion *)
      end
    else
      match i with
      | VReal x => ROk (write_u32 x (enc_tag (appTag tagReal realLen) e))
      | VDouble x => ROk (write (be64 x) (enc_tag (appTag tagDouble realLen) e))
      | VBool b => ROk (enc_boolean b e)
      | VString s => ROk (enc_string s (enc_tag (appTag tagCharacterString (u32 (zlen s + 1))) e))
      | VUint v => ROk (enc_unsigned v (enc_tag (appTag tagUint (u32 (valueLength v))) e))
      | VInt n => let v := u32 n in
                  ROk (enc_unsigned v (enc_tag (appTag tagInt (u32 (valueLength v))) e))
      | VEnum v => ROk (enc_enumerated v (enc_tag (appTag tagEnumerated (u32 (valueLength v))) e))
      | VOid o => ROk (enc_objectId o (enc_tag (appTag tagObjectID objectIDLen) e))
      | _ => ROk (set_eerr EUnknownType e)
      end
  end.

(** encoding/general.go:78-86 *)
Definition setInfoMask (x : Z) (b : bool) (mask : Z) : Z :=
  if b then Z.lor x mask else Z.land x (255 - mask).

(** encoding/general.go:95-131 (the loop over i = 0..5) *)
Fixpoint segs_loop (n : nat) (i maxSegs : Z) : Z :=
  match n with
  | O => 0
  | S n' => if maxSegs <? Z.shiftl 1 (i + 1) then u8 (Z.shiftl i 4) else segs_loop n' (i + 1) maxSegs
  end.
Definition encodeMaxSegsMaxApdu (maxSegs maxApdu : Z) : Z :=
  let octet := segs_loop 6 0 maxSegs in
  let octet := if maxSegs =? 64 then 96 else if 64 <? maxSegs then 112 else octet in
  if maxApdu <=? 50 then Z.lor octet 0
  else if maxApdu <=? 128 then Z.lor octet 1
  else if maxApdu <=? 206 then Z.lor octet 2
  else if maxApdu <=? 480 then Z.lor octet 3
  else if maxApdu <=? 1024 then Z.lor octet 4
  else if maxApdu <=? 1476 then Z.lor octet 5
  else octet.

(** encoding/npdu.go:134-197 NPDUMetadata *)
Definition maskNetMsg : Z := 128.
Definition maskDest : Z := 32.
Definition maskSrc : Z := 8.
Definition maskReply : Z := 4.
Definition checkMask (m mask : Z) : bool := 0 <? Z.land m mask.

(** encoding/npdu.go:11-63.  [meta.HasDestination()] may be true although
    n.Destination is nil (a priority byte with bit 5 set): nil dereference. *)
Definition npdu_meta (n : npdu) : Z :=
  let meta := 0 in
  let meta := setInfoMask meta (n_netmsg n) maskNetMsg in
  let meta := setInfoMask meta (n_reply n) maskReply in
  let meta := Z.lor meta (n_prio n) in
  let meta := match n_dest n with
              | Some a => if negb (a_net a =? 0) then setInfoMask meta true maskDest else meta
              | None => meta end in
  match n_src n with
  | Some a => if negb (a_net a =? 0) then setInfoMask meta true maskSrc else meta
  | None => meta
  end.
Definition enc_addr (a : address) (e : enc) : enc :=
  write (a_adr a) (write_u8 (a_len a) (write_u16 (a_net a) e)).
Definition enc_NPDU (n : npdu) (e : enc) : res enc :=
  let e := write_u8 (n_version n) e in
  let meta := npdu_meta n in
  let e := write_u8 meta e in
  rbind (if checkMask meta maskDest
         then match n_dest n with Some a => ROk (enc_addr a e) | None => RPanic end
         else ROk e) (fun e =>
  rbind (if checkMask meta maskSrc
         then match n_src n with Some a => ROk (enc_addr a e) | None => RPanic end
         else ROk e) (fun e =>
  let e := if checkMask meta maskDest then write_u8 (n_hop n) e else e in
  ROk (if checkMask meta maskNetMsg then
         let e := write_u8 (n_msgtype n) e in
         if 128 <=? n_msgtype n then write_u16 (n_vendor n) e else e
       else e))).

(** encoding/bvlc.go:9-16 *)
Definition enc_BVLC (b : bvlc) (e : enc) : enc :=
  write (v_data b) (write_u16 (v_len b) (write_u8 (v_func b) (write_u8 (v_type b) e))).

(** encoding/apdu.go:176-225 APDUMetadata masks *)
Definition apduMaskSegmented : Z := 8.
Definition apduMaskMoreFollows : Z := 4.
Definition apduMaskSegmentedAccepted : Z := 2.
Definition apdu_meta (a : apdu) : Z :=
  let m := Z.lor (Z.land 0 240) (p_type a) in
  let m := setInfoMask m (p_more a) apduMaskMoreFollows in
  let m := setInfoMask m (p_seg a) apduMaskSegmented in
  setInfoMask m (p_segacc a) apduMaskSegmentedAccepted.

(** encoding/apdu.go:39-47 *)
Definition enc_apduConfirmed (a : apdu) (e : enc) : enc :=
  let e := write_u8 (encodeMaxSegsMaxApdu (p_maxsegs a) (p_maxapdu a)) e in
  let e := write_u8 (p_invoke a) e in
  let e := if p_seg a then write_u8 (p_window a) (write_u8 (p_seq a) e) else e in
  write_u8 (p_service a) e.

(** encoding/apdu.go:10-37; returns the error as well (it is not stored in e.err) *)
Definition enc_APDU (a : apdu) (e : enc) : enc * option gerr :=
  let e := write_u8 (apdu_meta a) e in
  if p_type a =? pduComplexAck then (write_u8 (p_service a) (write_u8 (p_invoke a) e), None)
  else if p_type a =? pduUnconfirmed then (write_u8 (p_uservice a) e, None)
  else if p_type a =? pduConfirmed then (enc_apduConfirmed a e, None)
  else if p_type a =? pduSegmentAck then (e, Some ESegmented)
  else if p_type a =? pduError then (e, Some EErrorPdu)
  else if p_type a =? pduReject then (e, Some ERejected)
  else if p_type a =? pduAbort then (e, Some EAborted)
  else (e, Some (EUnknownPdu (Z.land 240 (apdu_meta a)))).

(** encoding/validate.go:9-14 and 16-21 *)
Definition isValidObjectType (t : Z) : option gerr :=
  if MaxObject <? t then Some EInvalidObjectType else None.
Definition isValidPropertyType (t : Z) : option gerr :=
  if MaxPropertyID <? t then Some EInvalidPropertyType else None.

(** encoding/readprop.go:9-33.  Panics (index out of range) when the object has
    no property; returns the next tag position or an error. *)
Definition readPropertyHeader (tagPos : Z) (data : property_data) (e : enc)
  : res (enc * (Z * option gerr)) :=
  let o := pd_object data in
  match isValidObjectType (oid_type (o_id o)) with
  | Some err => ROk (e, (0, Some err))
  | None =>
    match o_props o with
    | [] => RPanic
    | prop :: _ =>
      match isValidPropertyType (pr_type prop) with
      | Some err => ROk (e, (0, Some err))
      | None =>
        let e := contextObjectID tagPos (o_id o) e in
        let tagPos := u8 (tagPos + 1) in
        let e := contextEnumerated tagPos (pr_type prop) e in
        let tagPos := u8 (tagPos + 1) in
        let e := if negb (pr_index prop =? ArrayAll) then contextUnsigned tagPos (pr_index prop) e else e in
        ROk (e, (u8 (tagPos + 1), None))
      end
    end
  end.

Definition confirmedApdu (invoke service : Z) : apdu :=
  mkApdu pduConfirmed false false false 0 MaxAPDU invoke 0 0 service 0 0 0 [].

(** encoding/readprop.go:36-49: the header's error is dropped *)
Definition enc_ReadProperty (invokeID : Z) (data : property_data) (e : enc) : res (enc * option gerr) :=
  let e := fst (enc_APDU (confirmedApdu invokeID svcReadProperty) e) in
  rbind (readPropertyHeader 0 data e) (fun r => ROk (fst r, eerr (fst r))).

(** encoding/readprop.go:52-77 *)
Definition enc_ReadPropertyAck (invokeID : Z) (data : property_data) (e : enc) : res (enc * option gerr) :=
  match o_props (pd_object data) with
  | [prop] =>
    let a := mkApdu pduComplexAck false false false 0 MaxAPDU invokeID 0 0 svcReadProperty 0 0 0 [] in
    let e := fst (enc_APDU a e) in
    rbind (readPropertyHeader 0 data e) (fun r =>
    let '(e, (tagID, err)) := r in
    match err with
    | Some x => ROk (e, Some x)
    | None =>
      let e := openingTag tagID e in
      let tagID := u8 (tagID + 1) in
      rbind (enc_AppData (pr_data prop) false e) (fun e =>
      let e := closingTag tagID e in
      ROk (e, eerr e))
    end)
  | l => ROk (e, Some (EPropertyCount (zlen l)))
  end.

(** encoding/encoder.go:174-201, one iteration of the loop *)
Definition enc_property (wr : bool) (prop : property) (e : enc) : res enc :=
  let e := contextEnumerated 0 (pr_type prop) e in
  let e := if negb (pr_index prop =? ArrayAll) then contextUnsigned 1 (pr_index prop) e else e in
  if wr then
    let e := openingTag 2 e in
    rbind (enc_AppData (pr_data prop) false e) (fun e =>
    let e := closingTag 2 e in
    ROk (if negb (pr_prio prop =? 0) then contextUnsigned 2 (u32 (pr_prio prop)) e else e))
  else ROk e.
Fixpoint enc_properties (wr : bool) (ps : list property) (e : enc) : res enc :=
  match ps with
  | [] => ROk e
  | p :: ps' => rbind (enc_property wr p e) (enc_properties wr ps')
  end.

(** encoding/encoder.go:159-172 *)
Fixpoint enc_objects (wr : bool) (os : list object) (e : enc) : res enc :=
  match os with
  | [] => ROk e
  | o :: os' =>
    let e := contextObjectID 0 (o_id o) e in
    let e := openingTag 1 e in
    rbind (enc_properties wr (o_props o) e) (fun e =>
    enc_objects wr os' (closingTag 1 e))
  end.

(** encoding/readmultiple.go:7-23 *)
Definition enc_ReadMultipleProperty (invokeID : Z) (data : multiple_property_data) (e : enc)
  : res (enc * option gerr) :=
  let e := fst (enc_APDU (confirmedApdu invokeID svcReadPropMultiple) e) in
  rbind (enc_objects false (md_objects data) e) (fun e => ROk (e, eerr e)).

(** encoding/writemultiple.go:6-22 *)
Definition enc_WriteMultiProperty (invokeID : Z) (data : multiple_property_data) (e : enc)
  : res (enc * option gerr) :=
  let e := fst (enc_APDU (confirmedApdu invokeID svcWritePropMultiple) e) in
  rbind (enc_objects true (md_objects data) e) (fun e => ROk (e, eerr e)).

(** encoding/writeprop.go:43-53 *)
Definition pointTypeBOBV (data : property_data) : bool :=
  let pt := oid_type (o_id (pd_object data)) in
  let pr := match o_props (pd_object data) with p :: _ => pr_type p | [] => 0 end in
  ((pt =? 5) || (pt =? 4)) && (pr =? 85).

(** encoding/writeprop.go:8-40 *)
Definition enc_WriteProperty (invokeID : Z) (data : property_data) (e : enc) : res (enc * option gerr) :=
  let e := fst (enc_APDU (confirmedApdu invokeID svcWriteProperty) e) in
  rbind (readPropertyHeader 0 data e) (fun r =>
  let '(e, (tagID, err)) := r in
  match err with
  | Some x => ROk (e, Some x)
  | None =>
    match o_props (pd_object data) with
    | [] => RPanic
    | prop :: _ =>
      let e := openingTag tagID e in
      rbind (enc_AppData (pr_data prop) (pointTypeBOBV data) e) (fun e =>
      let e := closingTag tagID e in
      let tagID := u8 (tagID + 1) in
      let e := if negb (pr_prio prop =? 0) then contextUnsigned tagID (u32 (pr_prio prop)) e else e in
      ROk (e, eerr e))
    end
  end).

(** binary.Write of an arbitrary dynamic value, used by
    encoding/readmultipleack.go:57,60.  Fixed-size types are written raw, others
    are an error, a nil interface panics inside package reflect. *)
Definition bin_value (v : value) : res (option (list Z)) :=
  match v with
  | VNil => RPanic
  | VNull => ROk (Some [])
  | VBool b => ROk (Some [if b then 1 else 0])
  | VUint n => ROk (Some (be32 n))
  | VInt n => ROk (Some (be32 (u32 n)))
  | VReal x => ROk (Some (be32 x))
  | VDouble x => ROk (Some (be64 x))
  | VOctets l => ROk (Some l)
  | VEnum n => ROk (Some (be32 n))
  | VOid o => ROk (Some (be16 (oid_type o) ++ be32 (oid_inst o)))
  | _ => ROk None
  end.
Definition write_value (v : value) (e : enc) : res enc :=
  match eerr e with
  | Some _ => ROk e
  | None => match bin_value v with
            | RPanic => RPanic
            | ROk (Some bs) => ROk (write bs e)
            | ROk None => ROk (set_eerr EInvalidType e)
            end
  end.
(** encoding/readmultipleack.go:40-63 *)
Fixpoint propertiesWithData (ps : list property) (e : enc) : res enc :=
  match ps with
  | [] => ROk e
  | p :: ps' =>
    let e := contextEnumerated 2 (pr_type p) e in
    let e := if negb (pr_index p =? ArrayAll) then contextUnsigned 3 (pr_index p) e else e in
    let e := openingTag 4 e in
    rbind (write_value (pr_data p) e) (fun e =>
    let e := closingTag 4 e in
    rbind (write_value (pr_data p) e) (propertiesWithData ps'))
  end.
(** encoding/readmultipleack.go:23-38 *)
Fixpoint enc_objectsWithData (os : list object) (e : enc) : res enc :=
  match os with
  | [] => ROk e
  | o :: os' =>
    let e := openingTag 1 (contextObjectID 0 (o_id o) e) in
    rbind (propertiesWithData (o_props o) e) (fun e =>
    enc_objectsWithData os' (closingTag 1 e))
  end.
(** encoding/readmultipleack.go:8-21 *)
Definition enc_ReadMultiplePropertyAck (invokeID : Z) (data : multiple_property_data) (e : enc)
  : res (enc * option gerr) :=
  let a := mkApdu pduComplexAck false false false 0 0 invokeID 0 0 svcReadPropMultiple 0 0 0 [] in
  let e := fst (enc_APDU a e) in
  rbind (enc_objectsWithData (md_objects data) e) (fun e => ROk (e, eerr e)).

(** encoding/iam.go:7-20 *)
Definition enc_IAm (id : iam) (e : enc) : res (enc * option gerr) :=
  let e := write_u8 usvcIAm (write_u8 pduUnconfirmed e) in
  rbind (enc_AppData (VOid (i_id id)) false e) (fun e =>
  rbind (enc_AppData (VUint (i_maxapdu id)) false e) (fun e =>
  rbind (enc_AppData (VEnum (i_seg id)) false e) (fun e =>
  rbind (enc_AppData (VUint (i_vendor id)) false e) (fun e => ROk (e, eerr e))))).

(** encoding/whois.go:7-26; low and high are int32 *)
Definition enc_WhoIs (low high : Z) (e : enc) : enc :=
  let e := write_u8 usvcWhoIs (write_u8 pduUnconfirmed e) in
  if (0 <=? low) && (0 <=? high) && (low <? MaxInstance) && (high <? MaxInstance)
  then contextUnsigned 1 (u32 high) (contextUnsigned 0 (u32 low) e)
  else e.

(** encoding/date.go:33-43 *)
Definition enc_date (dt : date) (e : enc) : enc :=
  let e := if negb (d_year dt =? 255) then write_u8 (u8 (d_year dt - 1990)) e else write_u8 (u8 (d_year dt)) e in
  write_u8 (u8 (d_dow dt)) (write_u8 (u8 (d_day dt)) (write_u8 (u8 (d_month dt)) e)).
(** encoding/date.go:69-76 *)
Definition enc_time (t : time) (e : enc) : enc :=
  write_u8 (u8 (Z.quot (t_milli t) 10))
    (write_u8 (u8 (t_sec t)) (write_u8 (u8 (t_min t)) (write_u8 (u8 (t_hour t)) e))).
