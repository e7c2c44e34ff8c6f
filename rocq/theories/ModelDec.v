(** Model of the decoder half of package encoding.  No proofs in this file. *)
From Verif Require Export ModelEnc.

(** encoding/decoder.go:18-23 *)
Definition newDecoder (b : list Z) : dec := mkDec b None None.
(** encoding/decoder.go:15-17 *)
Definition dlen (d : dec) : Z := zlen (dbuf d).

Definition set_derr (x : option gerr) (d : dec) : dec := mkDec (dbuf d) (dprev d) x.

(** encoding/decoder.go:50-56 with encoding/binary.Read for a target of [n]
    bytes.  [None] = the target keeps its old value.  io.ReadFull on a
    bytes.Buffer: a short read drains the buffer and leaves lastRead invalid; a
    zero-byte target reads nothing and succeeds. *)
Definition decode_n (n : nat) (d : dec) : option (list Z) * dec :=
  match derr d with
  | Some _ => (None, d)
  | None =>
    match n with
    | O => (Some [], d)
    | _ =>
      if (n <=? length (dbuf d))%nat
      then let got := firstn n (dbuf d) in
           (Some got, mkDec (skipn n (dbuf d)) (Some (last got 0)) None)
      else match dbuf d with
           | [] => (None, mkDec [] None (Some EEOF))
           | _ => (None, mkDec [] None (Some EUnexpectedEOF))
           end
    end
  end.

(** big-endian value of the bytes read *)
Definition be_val (l : list Z) : Z := fold_left (fun acc b => acc * 256 + b) l 0.

(** d.decode(&x) for an unsigned x of n bytes whose previous content is [old] *)
Definition decode_u (n : nat) (old : Z) (d : dec) : Z * dec :=
  let '(r, d) := decode_n n d in
  (match r with Some bs => be_val bs | None => old end, d).

(** bytes.Buffer.Read via encoding/decoder.go:37-39 into a fresh slice of n
    bytes: returns the slice contents (zero padded) and the error. *)
Definition buf_read (n : Z) (d : dec) : list Z * option gerr * dec :=
  match dbuf d with
  | [] => if n =? 0 then ([], None, mkDec [] None (derr d))
          else (zeros n, Some EEOF, mkDec [] None (derr d))
  | _ => let k := Nat.min (Z.to_nat n) (length (dbuf d)) in
         let got := firstn k (dbuf d) in
         (got ++ zeros (n - zlen got), None,
          mkDec (skipn k (dbuf d)) (match got with [] => None | _ => Some (last got 0) end) (derr d))
  end.

(** encoding/decoder.go:41-44: overwrites d.err *)
Definition dec_Skip (n : Z) (d : dec) : dec :=
  let '(_, err, d) := buf_read n d in set_derr err d.

(** encoding/decoder.go:46-48, bytes.Buffer.UnreadByte; the error is ignored by
    the only caller *)
Definition dec_UnreadByte (d : dec) : dec :=
  match dprev d with
  | Some b => mkDec (b :: dbuf d) None (derr d)
  | None => d
  end.

(** encoding/decoder.go:63-71 *)
Definition tagNumber (d : dec) : (Z * Z) * dec :=
  let '(meta, d) := decode_u 1 0 d in
  if meta_isExtendedTagNumber meta
  then let '(tag, d) := decode_u 1 0 d in ((tag, meta), d)
  else ((Z.shiftr meta 4, meta), d).

(** encoding/decoder.go:73-97 *)
Definition dec_value (meta : Z) (d : dec) : Z * dec :=
  if meta_isExtendedValue meta then
    let '(val, d) := decode_u 1 0 d in
    if val =? 255 then decode_u 4 0 d
    else if val =? 254 then decode_u 2 0 d
    else (val, d)
  else if meta_isOpening meta || meta_isClosing meta then (0, d)
  else (Z.land meta 7, d).

(** encoding/decoder.go:98-103 *)
Definition tagNumberAndValue (d : dec) : (Z * Z * Z) * dec :=
  let '((tag, meta), d) := tagNumber d in
  let '(v, d) := dec_value meta d in
  ((tag, meta, v), d).

(** encoding/decoder.go:105-111 *)
Definition dec_objectId (d : dec) : object_id * dec :=
  let '(v, d) := decode_u 4 0 d in
  (mkOid (Z.land (Z.shiftr v 22) MaxObject) (Z.land v MaxInstance), d).

(** encoding/decoder.go:117-128 *)
Definition dec_unsigned24 (d : dec) : Z * dec :=
  let '(a, d) := decode_u 1 0 d in
  let '(b, d) := decode_u 1 0 d in
  let '(c, d) := decode_u 1 0 d in
  (Z.lor (Z.lor (Z.land (u32 (Z.shiftl a 16)) 16711680) (Z.land (u32 (Z.shiftl b 8)) 65280)) (Z.land c 255), d).

(** encoding/decoder.go:130-149 *)
Definition dec_unsigned (len : Z) (d : dec) : Z * dec :=
  if len =? 1 then decode_u 1 0 d
  else if len =? 2 then decode_u 2 0 d
  else if len =? 3 then dec_unsigned24 d
  else if len =? 4 then decode_u 4 0 d
  else (0, d).
(** encoding/decoder.go:113-115 *)
Definition dec_enumerated (len : Z) (d : dec) : Z * dec := dec_unsigned len d.

(** encoding/decoder.go:151-162; a, b, c are int8, x is int32 *)
Definition dec_signed24 (d : dec) : Z * dec :=
  let '(a, d) := decode_u 1 0 d in
  let '(b, d) := decode_u 1 0 d in
  let '(c, d) := decode_u 1 0 d in
  (Z.lor (Z.lor (Z.land (i32 (Z.shiftl (i8 a) 16)) 16711680) (Z.land (i32 (Z.shiftl (i8 b) 8)) 65280))
         (Z.land (i8 c) 255), d).

(** encoding/decoder.go:164-183 *)
Definition dec_signed (len : Z) (d : dec) : Z * dec :=
  if len =? 1 then let '(v, d) := decode_u 1 0 d in (i8 v, d)
  else if len =? 2 then let '(v, d) := decode_u 2 0 d in (i16 v, d)
  else if len =? 3 then dec_signed24 d
  else if len =? 4 then let '(v, d) := decode_u 4 0 d in (i32 v, d)
  else (0, d).

(** encoding/general.go:167-172 *)
Definition byteReverseBits (c : Z) : Z :=
  let c := Z.lor (Z.shiftr (Z.land c 170) 1) (u8 (Z.shiftl (Z.land c 85) 1)) in
  let c := Z.lor (Z.shiftr (Z.land c 204) 2) (u8 (Z.shiftl (Z.land c 51) 2)) in
  Z.lor (Z.shiftr (Z.land c 240) 4) (u8 (Z.shiftl (Z.land c 15) 4)).

(** btypes/bitstring.go:12-20 *)
Definition maxBitStringBytes : Z := 15.
Definition newBitString (n : Z) : bitstring :=
  mkBits 0 (zeros (if maxBitStringBytes <? n then maxBitStringBytes else n)).
(** l with the element at index i replaced (Go s[i] = v, 0 <= i < len) *)
Fixpoint upd {A} (n : nat) (v : A) (l : list A) : list A :=
  match l, n with
  | [], _ => []
  | _ :: t, O => v :: t
  | h :: t, S n' => h :: upd n' v t
  end.
(** btypes/bitstring.go:84-90; s.Value[index] out of range panics *)
Definition bs_SetByte (i v : Z) (b : bitstring) : res bitstring :=
  if i <? maxBitStringBytes then
    if i <? zlen (bs_value b) then ROk (mkBits (bs_used b) (upd (Z.to_nat i) v (bs_value b))) else RPanic
  else ROk b.
(** btypes/bitstring.go:92-98, uint8 arithmetic *)
Definition bs_SetBitsUsed (byteUsed unused : Z) (b : bitstring) : bitstring :=
  mkBits (u8 (u8 (byteUsed * 8) - unused)) (bs_value b).

(** encoding/decoder.go:185-204; the loop "for i := 0; i < bytesUsed; i++" over
    [n] remaining iterations *)
Fixpoint bits_loop (n : nat) (i : Z) (data : list Z) (b : bitstring) : res bitstring :=
  match n with
  | O => ROk b
  | S n' => rbind (bs_SetByte i (byteReverseBits (znth (i + 1) data)) b)
                  (bits_loop n' (i + 1) data)
  end.
Definition dec_bitString (len : Z) (d : dec) : out dec (option bitstring) :=
  if len <=? 0 then Val None d
  else
    let '(r, d) := decode_n (Z.to_nat len) d in
    let data := match r with Some bs => bs | None => zeros len end in
    let b := newBitString (len - 1) in
    let bytesUsed := u8 (len - 1) in
    if bytesUsed <=? maxBitStringBytes then
      match bits_loop (Z.to_nat bytesUsed) 0 data b with
      | RPanic => Panic
      | ROk b => Val (Some (bs_SetBitsUsed bytesUsed (Z.land (znth 0 data) 7) b)) d
      end
    else Val (Some b) d.

(** golang.org/x/text/encoding/unicode UTF16(BigEndian, IgnoreBOM) decoder, as
    used by encoding/string.go:22-30: never returns an error; unpaired
    surrogates and a trailing odd byte become U+FFFD.  [utf8_rune] is
    utf8.EncodeRune. *)
Definition utf8_rune (r : Z) : list Z :=
  if r <? 128 then [r]
  else if r <? 2048 then [192 + r / 64; 128 + r mod 64]
  else if (55296 <=? r) && (r <? 57344) then [239; 191; 189]
  else if r <? 65536 then [224 + r / 4096; 128 + (r / 64) mod 64; 128 + r mod 64]
  else [240 + r / 262144; 128 + (r / 4096) mod 64; 128 + (r / 64) mod 64; 128 + r mod 64].
Fixpoint decodeUCS2 (l : list Z) : list Z :=
  match l with
  | [] => []
  | [_] => utf8_rune 65533
  | a :: b :: rest =>
    let x := a * 256 + b in
    if (55296 <=? x) && (x <? 57344) then
      match rest with
      | c :: d :: rest' =>
        let y := c * 256 + d in
        if (56320 <=? y) && (y <? 57344) then
          (if x <? 56320 then utf8_rune ((x - 55296) * 1024 + (y - 56320) + 65536) else utf8_rune 65533)
          ++ decodeUCS2 rest'
        else utf8_rune 65533 ++ decodeUCS2 rest
      | _ => utf8_rune 65533 ++ decodeUCS2 rest
      end
    else utf8_rune x ++ decodeUCS2 rest
  end.

(** encoding/string.go:32-56: make([]byte, len) panics when len < 0 *)
Definition dec_string (len : Z) (d : dec) : out dec (list Z * option gerr) :=
  let '(t, d) := decode_u 1 0 d in
  if (t =? 0) || (t =? 4) then
    if len <? 0 then Panic
    else
      let '(r, d) := decode_n (Z.to_nat len) d in
      let b := match r with Some bs => bs | None => zeros len end in
      Val (if t =? 4 then decodeUCS2 b else b, derr d) d
  else Val ([], Some (EUnsupportedString t)) d.

(** encoding/string.go:60-63 *)
Definition dec_octetstring (len : Z) (d : dec) : list Z * dec :=
  let '(r, d) := decode_n (Z.to_nat len) d in
  (match r with Some bs => bs | None => zeros len end, d).

(** encoding/date.go:45-67: d.err is overwritten; [dt] is the target *)
Definition dec_date (dt : date) (len : Z) (d : dec) : date * dec :=
  if len <=? 0 then (dt, d)
  else
    let '(data, err, d) := buf_read len d in
    let d := set_derr err d in
    match err with
    | Some _ => (dt, d)
    | None =>
      if len <? 4 then (dt, d)
      else (mkDate (if negb (d_year dt =? 255) then znth 0 data + 1990 else znth 0 data)
                   (znth 1 data) (znth 2 data) (znth 3 data), d)
    end.

(** encoding/date.go:77-91: data[3] panics when 0 < len < 4 *)
Definition dec_time (t : time) (len : Z) (d : dec) : out dec time :=
  if len <=? 0 then Val t d
  else
    let '(data, err, d) := buf_read len d in
    let d := set_derr err d in
    match err with
    | Some _ => Val t d
    | None =>
      if len <? 4 then Panic
      else Val (mkTime (znth 0 data) (znth 1 data) (znth 2 data) (znth 3 data * 10)) d
    end.

Definition date0 : date := mkDate 0 0 0 0.
Definition time0 : time := mkTime 0 0 0 0.

(** encoding/appdata.go:133-184; len is an int obtained from a uint32, so >= 0 *)
Definition AppDataOfTag (tag len : Z) (d : dec) : out dec (value * option gerr) :=
  if tag =? tagNull then Val (VNull, None) d
  else if tag =? tagBool then Val (VBool (0 <? len), derr d) d
  else if tag =? tagUint then let '(v, d) := dec_unsigned len d in Val (VUint v, derr d) d
  else if tag =? tagInt then let '(v, d) := dec_signed len d in Val (VInt v, derr d) d
  else if tag =? tagReal then let '(v, d) := decode_u 4 0 d in Val (VReal v, derr d) d
  else if tag =? tagDouble then let '(v, d) := decode_u 8 0 d in Val (VDouble v, derr d) d
  else if tag =? tagOctetString then let '(b, d) := dec_octetstring len d in Val (VOctets b, derr d) d
  else if tag =? tagCharacterString then
    obind (dec_string (len - 1) d) (fun r d => Val (VString (fst r), snd r) d)
  else if tag =? tagBitString then
    obind (dec_bitString len d) (fun b d => Val (VBits b, derr d) d)
  else if tag =? tagEnumerated then let '(v, d) := dec_enumerated len d in Val (VUint v, derr d) d
  else if tag =? tagDate then let '(v, d) := dec_date date0 len d in Val (VDate v, derr d) d
  else if tag =? tagTime then obind (dec_time time0 len d) (fun t d => Val (VTime t, derr d) d)
  else if tag =? tagObjectID then let '(o, d) := dec_objectId d in Val (VOid o, derr d) d
  else Val (VNil, Some (EUnsupportedTag tag)) d.

(** encoding/appdata.go:185-188 *)
Definition dec_AppData (d : dec) : out dec (value * option gerr) :=
  let '((tag, _, len), d) := tagNumberAndValue d in
  AppDataOfTag tag len d.

(** encoding/bvlc.go:18-24: b.Data is a nil slice, so the last decode reads
    nothing *)
Definition dec_BVLC (d : dec) : bvlc * dec :=
  let '(t, d) := decode_u 1 0 d in
  let '(f, d) := decode_u 1 0 d in
  let '(l, d) := decode_u 2 0 d in
  let '(_, d) := decode_n 0 d in
  (mkBvlc t f l [], d).

(** encoding/npdu.go:65-72 *)
Definition dec_Address (d : dec) : address * dec :=
  let '(net, d) := decode_u 2 0 d in
  let '(len, d) := decode_u 1 0 d in
  let '(r, d) := decode_n (Z.to_nat len) d in
  (mkAddr net len 0 [] (match r with Some bs => bs | None => zeros len end), d).

(** btypes/ndpu *)
Definition ndpuIamRouterToNetwork : Z := 1.
Definition ndpuWhatIsNetworkNumber : Z := 18.
Definition ndpuNetworkIs : Z := 19.

Definition netAddr (n : Z) : address := mkAddr n 0 0 [] [].

(** encoding/npdu.go:79-132 on a fresh npdu.  The loop at line 120 runs exactly
    once (i starts at size = d.len()); the inner range ranges over the
    one-element slice taken before the loop. *)
Definition dec_NPDU (d : dec) : (npdu * list address * option gerr) * dec :=
  let '(version, d) := decode_u 1 0 d in
  let '(meta, d) := decode_u 1 0 d in
  let reply := checkMask meta maskReply in
  let netmsg := checkMask meta maskNetMsg in
  let prio := Z.land meta 3 in
  let '(dest, d) := if checkMask meta maskDest
                    then let '(a, d) := dec_Address d in (Some a, d) else (None, d) in
  let '(src, d) := if checkMask meta maskSrc
                   then let '(a, d) := dec_Address d in (Some a, d) else (None, d) in
  let '(hop, d) := if checkMask meta maskDest then decode_u 1 0 d else (0, d) in
  if netmsg then
    let '(mt, d) := decode_u 1 0 d in
    let '(vendor, d) := if 128 <? mt then decode_u 2 0 d else (0, d) in
    let '(src, d) := if mt =? ndpuNetworkIs
                     then let '(n, d) := decode_u 2 0 d in (Some (netAddr n), d) else (src, d) in
    if mt =? ndpuIamRouterToNetwork then
      let '(n1, d) := decode_u 2 0 d in
      let '(n2, d) := decode_u 2 n1 d in
      let nets := netAddr n1 :: (if negb (n1 =? n2) then [netAddr n2] else []) in
      ((mkNpdu version dest (Some (netAddr n2)) vendor true mt reply prio hop, nets, derr d), d)
    else ((mkNpdu version dest src vendor true mt reply prio hop, [], derr d), d)
  else ((mkNpdu version dest src 0 false 0 reply prio hop, [], derr d), d).

(** encoding/general.go:139-156 *)
Definition decodeMaxApdu (a : Z) : Z :=
  let s := Z.land a 15 in
  if s =? 0 then 50 else if s =? 1 then 128 else if s =? 2 then 206
  else if s =? 3 then 480 else if s =? 4 then 1024 else if s =? 5 then 1476 else 0.
(** encoding/general.go:158-165 *)
Definition decodeMaxSegs (a : Z) : Z :=
  let a := Z.shiftr a 4 in
  if 7 <=? a then 65 else Z.shiftl 1 a.

(** encoding/apdu.go:111-138; ErrorClass is a uint16 and ErrorCode a uint32
    (btypes/bacerr/bacerr.go:4,7), [dec_unsigned] yields a uint32 *)
Definition dec_apduError (a : apdu) (d : dec) : (apdu * option gerr) * dec :=
  let '(inv, d) := decode_u 1 0 d in
  let '(svc, d) := decode_u 1 0 d in
  let mk c k := mkApdu (p_type a) (p_seg a) (p_more a) (p_segacc a) 0 0 inv 0 0 svc 0 c k [] in
  let '((_, meta), d) := tagNumber d in
  if meta_isOpening meta then
    let '((_, _, v), d) := tagNumberAndValue d in
    let '(c, d) := dec_unsigned v d in
    let '((_, _, v), d) := tagNumberAndValue d in
    let '(k, d) := dec_unsigned v d in
    let '((_, meta), d) := tagNumber d in
    let r := mk (u16 c) k in
    if negb (meta_isClosing meta) then ((r, Some EWrongTagClosing), d) else ((r, None), d)
  else
    let '((_, c, _), d) := tagNumberAndValue d in
    let '((_, k, _), d) := tagNumberAndValue d in
    ((mk c k, None), d).

(** encoding/apdu.go:58-86 on a fresh apdu; 140-174 inlined *)
Definition dec_APDU (d : dec) : (apdu * option gerr) * dec :=
  let '(meta, d) := decode_u 1 0 d in
  let seg := checkMask meta apduMaskSegmented in
  let segacc := checkMask meta apduMaskSegmentedAccepted in
  let more := checkMask meta apduMaskMoreFollows in
  let ty := Z.land 240 meta in
  let base := mkApdu ty seg more segacc 0 0 0 0 0 0 0 0 0 [] in
  if (ty =? pduComplexAck) || (ty =? pduSimpleAck) then
    let '(inv, d) := decode_u 1 0 d in
    let '(svc, d) := decode_u 1 0 d in
    ((mkApdu ty seg more segacc 0 0 inv 0 0 svc 0 0 0 [], derr d), d)
  else if ty =? pduUnconfirmed then
    let '(svc, d) := decode_u 1 0 d in
    let n := length (dbuf d) in
    let '(r, d) := decode_n n d in
    ((mkApdu ty seg more segacc 0 0 0 0 0 0 svc 0 0
        (match r with Some bs => bs | None => repeat 0 n end), derr d), d)
  else if ty =? pduConfirmed then
    let '(b, d) := decode_u 1 0 d in
    let '(inv, d) := decode_u 1 0 d in
    let '(seq, d) := if seg then decode_u 1 0 d else (0, d) in
    let '(win, d) := if seg then decode_u 1 0 d else (0, d) in
    let '(svc, d) := decode_u 1 0 d in
    let n := length (dbuf d) in
    let '(raw, d) := if (0 <? n)%nat
                     then let '(r, d) := decode_n n d in
                          (match r with Some bs => bs | None => repeat 0 n end, d)
                     else ([], d) in
    ((mkApdu ty seg more segacc (decodeMaxSegs b) (decodeMaxApdu b) inv seq win svc 0 0 0 raw, derr d), d)
  else if ty =? pduSegmentAck then ((base, Some ESegmented), d)
  else if ty =? pduError then dec_apduError base d
  else if ty =? pduReject then ((base, Some ERejected), d)
  else if ty =? pduAbort then ((base, Some EAborted), d)
  else ((base, Some (EUnknownPdu ty)), d).

(** encoding/readprop.go:148-155: "for d.buff.Len() > 1" *)
Fixpoint readprop_loop (fuel : nat) (acc : list value) (d : dec) : out dec (list value * option gerr) :=
  match fuel with
  | O => Fuel
  | S fuel' =>
    if 1 <? dlen d then
      obind (dec_AppData d) (fun r d =>
      match r with
      | (_, Some err) => Val (acc, Some err) (set_derr (Some err) d)
      | (v, None) => readprop_loop fuel' (acc ++ [v]) d
      end)
    else Val (acc, None) d
  end.

Definition collapse (l : list value) : value :=
  match l with [v] => v | _ => VList l end.

(** encoding/readprop.go:79-177.  On success [Val (Some data, None)]; on an
    error [Val (None, Some err)] (the caller's struct may be partially assigned;
    the client discards it). *)
Definition dec_ReadProperty_fuel (fuel : nat) (d : dec) : out dec (option property_data * option gerr) :=
  if dlen d <? 7 then Val (None, Some EMissingParameters) d
  else
    let '((tag, meta), d) := tagNumber d in
    if negb (tag =? 0) then Val (None, Some (EIncorrectTag 0 tag)) d
    else if negb (meta_isContextSpecific meta) then Val (None, Some (ENotContext tag)) d
    else
    let '(oid, d) := dec_objectId d in
    let '((tag, meta), d) := tagNumber d in
    if negb (tag =? 1) then Val (None, Some (EIncorrectTag 1 tag)) d
    else
    let '(lenValue, d) := dec_value meta d in
    let '(ptype, d) := dec_enumerated lenValue d in
    let '((tag, meta), d) := if negb (dlen d =? 0) then tagNumber d else ((tag, meta), d) in
    let fin (idx : Z) (data : value) (d : dec) :=
      match derr d with
      | None => Val (Some (mkPD (mkObj [] [] oid [mkProp ptype idx data 0])), None) d
      | Some err => Val (None, Some err) d
      end in
    if negb (dlen d =? 0) || (2 <=? tag) then
      let '(lenValue, d) := dec_value meta d in
      let '((idx, openTag), d) :=
        if tag =? 2 then
          let '(idx, d) := dec_unsigned lenValue d in
          if 0 <? dlen d then let '((t, _), d) := tagNumber d in ((idx, t), d)
          else ((idx, 0), d)
        else ((ArrayAll, tag), d) in
      if openTag =? 3 then
        obind (readprop_loop fuel [] d) (fun r d =>
        match r with
        | (_, Some err) => Val (None, Some err) d
        | (l, None) => fin idx (collapse l) d
        end)
      else fin idx VNil d
    else fin ArrayAll VNil d.

(** the loop consumes at least one byte per iteration, see the proofs *)
Definition dec_ReadProperty (d : dec) : out dec (option property_data * option gerr) :=
  dec_ReadProperty_fuel (S (length (dbuf d))) d.

(** encoding/context_tag.go:7-97; Go switch cases do not fall through, so the
    first two SHED_LEVEL cases change nothing.  Property numbers from
    btypes/property.go. *)
Definition tagTypeInContext (property tagNumber : Z) : Z :=
  let is n := tagNumber =? n in
  if property =? 212 then tagNumber                       (* PROP_ACTUAL_SHED_LEVEL *)
  else if property =? 218 then tagNumber                  (* PROP_REQUESTED_SHED_LEVEL *)
  else if property =? 214 then                            (* PROP_EXPECTED_SHED_LEVEL *)
    if is 0 || is 1 then tagUint else if is 2 then tagReal else tagNumber
  else if property =? 2 then                              (* PROP_ACTION *)
    if is 0 || is 1 then tagObjectID else if is 2 then tagEnumerated
    else if is 3 || is 5 || is 6 then tagUint else if is 7 || is 8 then tagBool else tagNumber
  else if property =? 53 then                             (* PROP_LIST_OF_GROUP_MEMBERS *)
    if is 0 then tagObjectID else tagNumber
  else if property =? 38 then                             (* PROP_EXCEPTION_SCHEDULE *)
    if is 1 then tagObjectID else if is 3 then tagUint else tagNumber
  else if property =? 132 then                            (* PROP_LOG_DEVICE_OBJECT_PROPERTY *)
    if is 0 || is 3 then tagObjectID else if is 1 then tagEnumerated
    else if is 2 then tagUint else tagNumber
  else if property =? 211 then                            (* PROP_SUBORDINATE_LIST *)
    if is 0 || is 1 then tagObjectID else tagNumber
  else if property =? 102 then                            (* PROP_RECIPIENT_LIST *)
    if is 0 then tagObjectID else tagNumber
  else if property =? 152 then                            (* PROP_ACTIVE_COV_SUBSCRIPTIONS *)
    if is 2 then tagBool else if is 3 then tagUint else if is 4 then tagReal else tagNumber
  else tagNumber.

(** encoding/readmultipleack.go:73-96 *)
Definition dec_bacError (d : dec) : out dec (Z * Z * option gerr) :=
  obind (dec_AppData d) (fun r d =>
  match r with
  | (_, Some err) => Val (0, 0, Some err) d
  | (VUint class, None) =>
    obind (dec_AppData d) (fun r d =>
    match r with
    | (_, Some err) => Val (class, 0, Some err) d
    | (VUint code, None) => Val (class, code, None) d
    | (_, None) => Val (class, 0, Some EBacnetUnknownType) d
    end)
  | (_, None) => Val (0, 0, Some EBacnetUnknownType) d
  end).

(** encoding/readmultipleack.go:164-175, the inner "for" over a BACnetDateTime *)
Fixpoint ts_loop (fuel : nat) (dt : date) (tm : time) (d : dec) : out dec (date * time) :=
  match fuel with
  | O => Fuel
  | S f =>
    let '((tag, meta, len), d) := tagNumberAndValue d in
    if meta_isClosing meta && (tag =? 2) then Val (dt, tm) d
    else if tag =? tagDate then let '(dt, d) := dec_date dt len d in ts_loop f dt tm d
    else if tag =? tagTime then obind (dec_time tm len d) (fun tm d => ts_loop f dt tm d)
    else if 0 <? len then ts_loop f dt tm (dec_Skip len d)
    else ts_loop f dt tm d
  end.

(** State of objectsWithData across the value loop: the objects appended so far
    and the values of the current property. *)

(** encoding/readmultipleack.go:157-214, the "for" over the values of one
    property.  [obj] is the object under construction (appended, prematurely, at
    line 180), [ptype] the property.  Returns the values and the objects, or the
    error returned at lines 189, 195, 203. *)
Fixpoint val_loop (fuel : nat) (obj : object) (ptype tag meta : Z)
         (objs : list object) (array : list value) (d : dec)
  : out dec (list object * list value * option gerr) :=
  match fuel with
  | O => Fuel
  | S f =>
    let next objs array d :=
      let '((tag, meta), d) := tagNumber d in
      if meta_isClosing meta && (tag =? 4) then Val (objs, array, None) d
      else val_loop f obj ptype tag meta objs array d in
    if meta_isContextSpecific meta then
      if meta_isClosing meta then next objs array (dec_UnreadByte d)
      else if meta_isOpening meta then
        if tag =? 2 then
          obind (ts_loop f date0 time0 d) (fun r d =>
          next objs (array ++ [VDateTime (fst r) (snd r)]) d)
        else next objs array d
      else
        let objs := objs ++ [obj] in
        let '(lenValue, d) := dec_value meta d in
        let tag := tagTypeInContext ptype tag in
        if tag =? maxTag then
          if 0 <? lenValue then
            let '(_, err, d) := buf_read lenValue d in
            match err with
            | Some err => Val (objs, array, Some err) d
            | None => next objs array d
            end
          else next objs array d
        else
          obind (AppDataOfTag tag lenValue d) (fun r d =>
          match r with
          | (_, Some err) => Val (objs, array, Some err) d
          | (v, None) => next objs (array ++ [v]) d
          end)
    else
      let '(len, d) := dec_value meta d in
      obind (AppDataOfTag tag len d) (fun r d =>
      match r with
      | (_, Some err) => Val (objs, array, Some err) d
      | (v, None) => next objs (array ++ [v]) d
      end)
  end.

Definition add_prop (o : object) (p : property) : object :=
  mkObj (o_name o) (o_desc o) (o_id o) (o_props o ++ [p]).

(** encoding/readmultipleack.go:126-238, the property loop; returns the object
    with its properties, the objects appended so far, or an error *)
Fixpoint prop_loop (fuel : nat) (obj : object) (tag meta length : Z) (objs : list object) (d : dec)
  : out dec (object * list object * option gerr) :=
  match fuel with
  | O => Fuel
  | S f =>
    if (0 <? dlen d) && (tag =? 2) && negb (meta_isClosing meta) then
      if negb (meta_isContextSpecific meta) then Val (obj, objs, Some EWrongTagContext) d
      else
      let '(ptype, d) := dec_enumerated length d in
      let '((tag, meta), d) := tagNumber d in
      if tag =? 2 then prop_loop f obj tag meta length objs d
      else if (tag =? 3) && negb (meta_isContextSpecific meta) then Val (obj, objs, Some EWrongTagContext) d
      else
      let '(idx, length, (tag, meta), d) :=
        if tag =? 3 then
          let '(len, d) := dec_value meta d in
          let '(idx, d) := dec_unsigned len d in
          let '(tm, d) := tagNumber d in
          (idx, len, tm, d)
        else (ArrayAll, length, (tag, meta), d) in
      if (tag =? 4) && meta_isOpening meta then
        let '((tag, meta), d) := tagNumber d in
        match derr d with
        | Some err => Val (obj, objs, Some err) d
        | None =>
          obind (val_loop f obj ptype tag meta objs [] d) (fun r d =>
          match r with
          | (objs, _, Some err) => Val (obj, objs, Some err) d
          | (objs, array, None) =>
            let obj := add_prop obj (mkProp ptype idx (collapse array) 0) in
            let '((tag, meta, length), d) := tagNumberAndValue d in
            prop_loop f obj tag meta length objs d
          end)
        end
      else if (tag =? 5) && meta_isOpening meta then
        obind (dec_bacError d) (fun r d =>
        match r with
        | (_, _, Some err) => Val (obj, objs, Some err) d
        | (class, code, None) =>
          let '(_, d) := tagNumber d in
          Val (obj, objs, Some (EBacnet class code)) d
        end)
      else Val (obj, objs, Some (EIncorrectTag 4 tag)) d
    else Val (obj, objs, None) d
  end.

(** encoding/readmultipleack.go:98-243 *)
Fixpoint obj_loop (fuel : nat) (oid : object_id) (objs : list object) (d : dec)
  : out dec (list object * option gerr) :=
  match fuel with
  | O => Fuel
  | S f =>
    match derr d with
    | Some err => Val (objs, Some err) d
    | None =>
      if 0 <? dlen d then
        let '((tag, meta, _), d) := tagNumberAndValue d in
        if negb (tag =? 0) then Val (objs, Some (EIncorrectTag 0 tag)) d
        else if negb (meta_isContextSpecific meta) then Val (objs, Some EWrongTagContext) d
        else
        let '(oid, d) := dec_objectId d in
        let obj := mkObj [] [] oid [] in
        let '((tag, meta), d) := tagNumber d in
        if negb (tag =? 1) then Val (objs, Some (EIncorrectTag 1 tag)) d
        else if negb (meta_isOpening meta) then Val (objs, Some EWrongTagOpening) d
        else
        let '((tag, meta, length), d) := tagNumberAndValue d in
        if negb (tag =? 2) then Val (objs, Some (EIncorrectTag 2 tag)) d
        else
        obind (prop_loop f obj tag meta length objs d) (fun r d =>
        match r with
        | (_, objs, Some err) => Val (objs, Some err) d
        | (obj, objs, None) => obj_loop f oid (objs ++ [obj]) d
        end)
      else Val (objs, None) d
    end
  end.

(** encoding/readmultipleack.go:65-71; the objects decoded so far are visible to
    the caller even when an error is returned *)
Definition dec_ReadMultiplePropertyAck (fuel : nat) (d : dec) : out dec (list object * option gerr) :=
  obind (obj_loop fuel (mkOid 0 0) [] d) (fun r d =>
  match r with
  | (objs, Some err) => Val (objs, Some err) (set_derr (Some err) d)
  | (objs, None) => Val (objs, derr d) d
  end).

(** encoding/iam.go:22-43 *)
Definition dec_IAm (d : dec) : out dec (iam * option gerr) :=
  obind (dec_AppData d) (fun r d =>
  match r with
  | (_, Some err) => Val (iam0, Some err) d
  | (v0, None) =>
    obind (dec_AppData d) (fun r1 d =>
    obind (dec_AppData d) (fun r2 d =>
    obind (dec_AppData d) (fun r3 d =>
    Val (mkIam (match v0 with VOid o => o | _ => mkOid 0 0 end)
               (match fst r1 with VUint m => m | _ => 0 end)
               (match fst r2 with VUint m => m | _ => 0 end)
               (match fst r3 with VUint m => m | _ => 0 end) addr0, derr d) d)))
  end).

(** encoding/whois.go:28-54 *)
Definition dec_WhoIs (d : dec) : (Z * Z * option gerr) * dec :=
  if dlen d =? 0 then ((-1, -1, None), d)
  else
    let '((tag, _, v), d) := tagNumberAndValue d in
    if negb (tag =? 0) then ((0, 0, Some (EIncorrectTag 0 tag)), d)
    else
    let '(l, d) := dec_unsigned v d in
    let '((tag, _, v), d) := tagNumberAndValue d in
    if negb (tag =? 1) then ((i32 l, 0, Some (EIncorrectTag 1 tag)), d)
    else
    let '(h, d) := dec_unsigned v d in
    ((i32 l, i32 h, derr d), d).
