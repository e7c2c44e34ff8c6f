(** What the codec properties observe: octets written, value read, octets left,
    error reported. *)
From Verif Require Import ModelBits SpecWire.

(** writing [v] into an empty encoder succeeds and yields [bs] *)
Definition writes (v : value) (bs : list Z) : Prop :=
  enc_AppData v false newEncoder = ROk (mkEnc bs None).
(** reading one value from [bs] yields [v] without error and leaves [rest] *)
Definition reads (bs : list Z) (v : value) (rest : list Z) : Prop :=
  exists d, dec_AppData (newDecoder bs) = Val (v, None) d /\ dbuf d = rest /\ derr d = None.
(** the caller sees an error: returned by the call or by Decoder.Error *)
Definition reported (r : out dec (value * option gerr)) : Prop :=
  match r with Val (_, e) d => e <> None \/ derr d <> None | _ => False end.

