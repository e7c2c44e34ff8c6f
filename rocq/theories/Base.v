(** Go notions used by the whole model: errors, dynamic values, outcomes,
    the decoder and encoder states.  No proofs in this file. *)
From Coq Require Export ZArith List Bool.
Export ListNotations.
Open Scope Z_scope.

(** Errors (Go [error] values).  One constructor per [fmt.Errorf]/error type in
    the modelled code; format arguments kept where they identify the error. *)
Inductive gerr : Type :=
| EEOF                       (* io.EOF *)
| EUnexpectedEOF             (* io.ErrUnexpectedEOF *)
| EInvalidType               (* encoding/binary: "invalid type" *)
| EUnsupportedTag (t : Z)    (* encoding/appdata.go:182 *)
| EUnsupportedString (t : Z) (* encoding/string.go:39 *)
| EUnknownType               (* encoding/appdata.go:125 *)
| EBoolConversion            (* encoding/appdata.go:85 *)
| EIncorrectTag (expected given : Z)   (* encoding/error.go *)
| EWrongTagOpening | EWrongTagClosing | EWrongTagContext (* encoding/error.go ErrorWrongTagType *)
| EMissingParameters         (* encoding/readprop.go:82 *)
| ENotContext (t : Z)        (* encoding/readprop.go:97 *)
| EPropertyCount (n : Z)     (* encoding/readprop.go:54 *)
| EBacnet (class code : Z)   (* encoding/readmultipleack.go:234 *)
| EBacnetUnknownType         (* encoding/readmultipleack.go:82,93 *)
| EInvalidObjectType | EInvalidPropertyType (* encoding/validate.go *)
| ESegmented | ERejected | EAborted | EErrorPdu | EUnknownPdu (t : Z) (* encoding/apdu.go *)
.

(** btypes/bitstring.go:7-10 *)
Record bitstring := mkBits { bs_used : Z; bs_value : list Z }.

(** btypes/datetime.go:16-27; the Even/Odd/Last flags are never assigned by the
    modelled code and are dropped. *)
Record date := mkDate { d_year : Z; d_month : Z; d_day : Z; d_dow : Z }.

(** btypes/datetime.go:29-34 *)
Record time := mkTime { t_hour : Z; t_min : Z; t_sec : Z; t_milli : Z }.

(** btypes/object.go:110-113.  Type is a Go uint16, Instance a uint32. *)
Record object_id := mkOid { oid_type : Z; oid_inst : Z }.

(** The dynamic types an [interface{}] holds in the modelled code.  float32 and
    float64 are represented by their IEEE-754 bit patterns (0..2^32-1, 0..2^64-1),
    strings and byte slices by their bytes. *)
Inductive value : Type :=
| VNil                         (* nil interface *)
| VNull                        (* null.Null{} *)
| VBool (b : bool)
| VUint (n : Z)                (* uint32 *)
| VInt (n : Z)                 (* int32 *)
| VReal (bits : Z)             (* float32 *)
| VDouble (bits : Z)           (* float64 *)
| VOctets (l : list Z)         (* []byte *)
| VString (l : list Z)         (* string *)
| VBits (b : option bitstring) (* *BitString, None = nil pointer *)
| VEnum (n : Z)                (* btypes.Enumerated *)
| VDate (d : date)
| VTime (t : time)
| VDateTime (d : date) (t : time) (* *btypes.DataTime *)
| VOid (o : object_id)
| VList (l : list value)       (* []interface{} *)
| VOther (tag : Z).            (* any other Go type, e.g. int, uint8, struct *)

(** Decoder state: encoding/decoder.go:10-13.  [dbuf] = unread bytes of the
    bytes.Buffer; [dprev] = the byte UnreadByte would restore (None when
    bytes.Buffer.lastRead = opInvalid); [derr] = sticky error. *)
Record dec := mkDec { dbuf : list Z; dprev : option Z; derr : option gerr }.

(** Outcome of a Go call: a value and the new state, a panic, or "the fuel given
    to a loop was exhausted". *)
Inductive out (S A : Type) : Type :=
| Val (a : A) (s : S)
| Panic
| Fuel.
Arguments Val {S A} a s.
Arguments Panic {S A}.
Arguments Fuel {S A}.

Definition obind {S A B} (m : out S A) (k : A -> S -> out S B) : out S B :=
  match m with Val a s => k a s | Panic => Panic | Fuel => Fuel end.

(** Encoder state: encoding/encoder.go:11-14 *)
Record enc := mkEnc { ebuf : list Z; eerr : option gerr }.

(** A Go call that may panic but has no decoder state. *)
Inductive res (A : Type) : Type := ROk (a : A) | RPanic.
Arguments ROk {A} a.
Arguments RPanic {A}.

Definition rbind {A B} (m : res A) (k : A -> res B) : res B :=
  match m with ROk a => k a | RPanic => RPanic end.

(** Go integer conversions. *)
Definition u8 (x : Z) : Z := x mod 256.
Definition u16 (x : Z) : Z := x mod 65536.
Definition u32 (x : Z) : Z := x mod 4294967296.
Definition i32 (x : Z) : Z := (x + 2147483648) mod 4294967296 - 2147483648.
Definition i16 (x : Z) : Z := (x + 32768) mod 65536 - 32768.
Definition i8 (x : Z) : Z := (x + 128) mod 256 - 128.

Definition zlen {A} (l : list A) : Z := Z.of_nat (length l).
(** Go [make([]byte, n)], n >= 0 *)
Definition zeros (n : Z) : list Z := repeat 0 (Z.to_nat n).
(** s[i] for 0 <= i < len(s) *)
Definition znth (i : Z) (l : list Z) : Z := nth (Z.to_nat i) l 0.
