# Machine-checked model of NubeDev/bacnet

## Approach

The Go sources in /repo are read as text and transcribed, function by function,
into Rocq (Coq 8.16.1) definitions.  Every definition cites the file and lines it
models and says where it simplifies.  Numbers are `Z` with explicit wrap-around
where Go wraps; bytes are `Z` in 0..255; slices and strings are lists; floats are
their IEEE bit patterns; Go `error` returns are values; panics and
non-termination are explicit outcomes (`Panic`, `Fuel`; `CPanic`, `CDiverge` for
client calls).

Files in `rocq/theories`:

| files | contents |
|---|---|
| `Base.v`, `Types.v` | outcomes, errors, dynamic values (`interface{}`), records of package btypes |
| `Model*.v` | the transcription; no proofs |
| `Spec*.v` | specifications written from the English property and the BACnet standard; they do not use the model's functions |
| `Proofs*.v` and other non-Prop files | lemmas |
| `Prop*.v` | the property theorems: statements, `exact lemma.`, `Print Assumptions`, and beside each theorem an `Example` with a concrete case that meets its hypotheses |

Statements come in four forms.  A plain name is the property.  `_refuted` is the
negation of the property with a concrete witness: the code as it is does not have
the property.  `_exact_partial` describes exactly what the code does on all inputs
where the property fails or may fail.  Other `_partial` theorems prove the property
on the largest set of inputs on which it holds; what is missing is in the list below.

### How each layer is modelled

*Codec.*  `Encoder`/`Decoder` are state transformers over a byte list, a sticky
error and the one byte that `UnreadByte` can restore, with the semantics of
`bytes.Buffer`, `encoding/binary` and `io.ReadFull` (short reads drain the
buffer).  Loops carry explicit fuel; termination is the statement that a fuel
computed from the input suffices, non-termination `forall fuel, ... = Fuel`.

*Receive path and client calls.*  `handleMsg` is a function from source address
and bytes to a list of effects (deliver to a transaction, publish, panic).  A
client call is a function of an environment: the id `tsm.ID` returns and, for the
k-th transmission of a datagram, whether the socket accepts it and what
`tsm.Receive` returns.  Theorems hold for all environments.

*Concurrency.*  `tsm` and `utsm` are labelled transition systems: one step per
atomic action between which the Go scheduler may interleave (channel operation,
critical section, read of a shared field).  Any number of goroutines may make any
calls in any order.  Safety is proved by invariants over all reachable states;
crashes and deadlocks are reachable-state witnesses.

*Helpers and package network.*  Functions over lists and maps (association lists
in arbitrary iteration order), client calls in sequence, each in its own
environment.

## Properties

**C01 Tag header round trip** (proved).  Model: `enc_tag`, `openingTag`, `closingTag`, `tagNumberAndValue` (ModelEnc, ModelDec). Spec: `SpecWire` (header octets by division and remainder). Case split on the four size classes of tag number and length; nibble arithmetic by a byte sweep lifted with `forallb`.  *All tag numbers, classes, lengths and suffixes; octets equal the standard's.*  Theorems: `c01_tag_header_round_trip`, `c01_opening_closing_tags`.

**C02 Unsigned and enumerated values are minimal and round-trip** (proved).  Model: `enc_unsigned`, `valueLength`, `contextUnsigned`, `dec_unsigned`. Spec: number of octets by thresholds, big-endian by `/` and `mod`. Arithmetic.  *All 2^32 values, any suffix; also behind a context tag of any number.*  Theorems: `c02_unsigned_minimal_round_trip`, `c02_tagged_round_trip`.

**C03 Object identifiers round-trip and do not alias** (proved).  Model: `enc_objectId`, `dec_objectId`. Spec: `type * 2^22 + inst` as four octets; injectivity from the decoder being a left inverse.  Theorems: `c03_object_id_round_trip_no_alias`.

**C04 Out-of-range object identifiers are not aliased on the wire** (partial).  Same model. The alias is computed for every type and instance: the identifier sent is the one modulo 1024 / 4194304.  *REFUTED: the encoder masks type and instance (encoder.go:119-123), so e.g. device 4194309 is addressed as device 5. The exact alias is proved for every out-of-range identifier.*  Theorems: `c04_out_of_range_object_id_refuted`, `c04_alias_exact_partial`.

**C05 Application values round-trip through the codec** (proved).  Model: `enc_AppData`, `dec_AppData`. Case analysis on the value with C01-C03 and the string and float lemmas.  Theorems: `c05_app_value_round_trip`.

**C06 Signed integers round-trip through the codec** (partial).  Same; the int32 case: the unsigned length rule against the signed reader, an equivalence over all int32.  *REFUTED: int32 values are written with the unsigned length; the round trip holds exactly outside 128..255 and 32768..65535 (proved as an equivalence).*  Theorems: `c06_int_round_trip_refuted`, `c06_int_round_trip_exact_partial`.

**C07 Written application values follow the standard's encoding** (partial).  Spec: `SpecCodec.std_value`, the octets clause 20.2 prescribes, per datatype. Equality or inequality per constructor.  *REFUTED: doubles are tagged with length 4, signed integers use unsigned lengths. Exact set of conforming values proved.*  Theorems: `c07_written_standard_refuted`, `c07_written_standard_exact_partial`.

**C08 Standard-conforming application values are read correctly** (partial).  Spec encoder of all twelve primitive types against `dec_AppData`, any suffix; what dates and three-octet negatives become is proved too.  *REFUTED for dates (year base 1990 instead of 1900) and 3-octet negative integers (no sign extension). Proved for all other conforming values, and what the excluded ones are read as.*  Theorems: `c08_conforming_read_refuted`, `c08_conforming_read_partial`, `c08_dates_exact_partial`, `c08_three_octet_negatives_exact_partial`, `c10_bit_positions`.

**C09 Conforming values outside the supported ranges are refused, not misread** (partial).  Spec encodings outside the range, against `dec_AppData`; witness plus the refused classes for all inputs.  *REFUTED: integers and enumerations longer than 4 octets are read as 0 and their contents left in the stream, bit strings over 120 bits as empty, unspecified years as 2245, all without error. Proved part: other character sets and unknown tags are refused.*  Theorems: `c09_unsupported_refused_refuted`, `c09_long_integers_refuted`, `c09_unsupported_refused_partial`.

**C10 Bit string bits keep their positions** (proved).  Model: `dec_bitString`, `bs_GetValue`. Spec: bits of the octets from the most significant. Induction over the octets, byte reversal by sweep.  Theorems: `c10_bit_positions`.

**C11 Truncated values are reported** (partial).  All proper prefixes of all conforming encodings (`spec_app v = pre ++ suf`): the prefix is reported exactly when `trunc_reports v pre`; otherwise a string crashes and a date or time is read as if zeros followed. By cases on where the cut falls: a short read leaves an error that stays.  *REFUTED: short dates and times are zero-filled without error, strings cut inside an extended header panic. Proved: exactly which proper prefixes of which conforming encodings are reported, and what happens on the others.*  Theorems: `c11_truncation_reported_refuted`, `c11_truncation_exact_partial`.

**C12 Decoding a value never crashes the process** (partial).  All byte lists: exact set of crashing inputs, from the shapes of the header that reach the two unchecked accesses.  *REFUTED: zero-length character strings and 1..3-octet times panic. The set of crashing inputs is characterised exactly for all byte strings.*  Theorems: `c12_value_never_crashes_refuted`, `c12_value_crash_exact_partial`, `c12_value_terminates`.

**C13 BVLC header round trip and length field** (proved).  Model: `enc_BVLC`, `dec_BVLC`, `send_frame`.  *All functions and payloads up to 65531 octets; the frame is that of client.Send.*  Theorems: `c13_bvlc_round_trip`, `c13_frame_length_field`.

**C14 NPDU header round trip** (proved).  Model: `enc_NPDU`, `dec_NPDU`. Spec: well-formedness of an NPDU in `SpecLayers`. Bit masks by sweep, addresses by list induction.  *Message types 1 and 19 (whose body the NPDU decoder consumes, see C21) and 0x80 (see C15) excluded.*  Theorems: `c14_npdu_round_trip`.

**C15 NPDU header round trip for every message type and priority** (partial).  Same model without the well-formedness of the type and priority; exact crash condition.  *REFUTED: type 0x80 writes a vendor id that is not read back; priority bytes with bit 5/3 crash the writer when there is no destination/source (exact condition proved).*  Theorems: `c15_message_type_and_priority_refuted`, `c15_type_80_exact_partial`, `c15_crash_exact_partial`.

**C16 APDU header round trip** (proved).  Model: `enc_APDU`, `dec_APDU`.  Theorems: `c16_confirmed_header_round_trip`, `c16_unconfirmed_header_round_trip`, `c16_complex_ack_header_round_trip`.

**C17 Advertised segment count and APDU size** (proved).  Model: `encodeMaxSegsMaxApdu`, `decodeMaxSegs`, `decodeMaxApdu`; all integers for the segments, all standard sizes.  Theorems: `c17_advertised_sizes`.

**C18 Advertised APDU size never exceeds the caller's** (partial).  Same, all integer sizes; equivalence.  *REFUTED: non-standard sizes are rounded up, sizes above 1476 advertised as 50. Exact condition proved.*  Theorems: `c18_never_advertises_more_refuted`, `c18_never_more_iff_standard_partial`.

**C19 I-Am round trip** (proved).  Model: `IAm_frame`, `handleMsg`, `dec_IAm` composed.  Theorems: `c19_iam_round_trip`.

**C20 Who-Is round trip** (proved).  Model: `enc_WhoIs`, `dec_WhoIs`.  Theorems: `c20_whois_round_trip`.

**C21 I-Am-Router-To-Network lists every network** (partial).  Model: `dec_NPDU`, message type 1; exact result for every list of networks by cases 0, 1, 2, more.  *REFUTED: a list of one network is an error, all after the second are dropped. Exact result proved for every list.*  Theorems: `c21_router_networks_refuted`, `c21_router_networks_exact_partial`.

**C22 Error PDU class and code** (partial).  Model: `dec_apduError`; exact result for every class and code in both spellings.  *REFUTED: the code of a standard Error-PDU is reported as 145 unless class mod 8 = 5. Exact result proved; the bracketed form is read correctly.*  Theorems: `c22_error_class_and_code_refuted`, `c22_standard_error_exact_partial`, `c22_bracketed_error_partial`.

**C23 ReadProperty request conformance** (proved).  Model: `enc_ReadProperty`. Spec: `SpecServices`, the production of clause 21 as octets.  *Exact octets, and decoded back through dec_APDU and dec_ReadProperty.*  Theorems: `c23_read_request`.

**C24 ReadProperty ack decoding** (proved).  Model: `dec_APDU`, `dec_ReadProperty`. Spec ack of any list of values; induction on the list through the value loop.  *All lists of the values C08/C10 read faithfully (dates and 3-octet negatives excluded there).*  Theorems: `c24_read_ack_decoding`.

**C25 ReadProperty ack written by the library** (partial).  Model: `enc_ReadPropertyAck` then the decoder.  *REFUTED only for the integers of C06; equivalence proved for every writable value.*  Theorems: `c25_ack_round_trip_refuted`, `c25_ack_round_trip_exact_partial`.

**C26 ReadProperty ack written by the library conforms to the standard** (partial).  Same against the spec ack.  *REFUTED for every value: opened with tag 3, closed with tag 4 (readprop.go:68-73); for standard values that is the only differing octet.*  Theorems: `c26_ack_conforms_refuted`.

**C27 ReadProperty decoding terminates** (proved).  Fuel = length + 1 suffices: every iteration consumes an octet or returns.  *Every byte string, as request and as ack.*  Theorems: `c27_read_decoding_terminates`.

**C28 ReadPropertyMultiple request conformance** (proved).  Model: `enc_ReadMultipleProperty`; induction on objects and properties.  Theorems: `c28_readmulti_request`.

**C29 ReadPropertyMultiple ack decoding** (proved).  Model: `dec_ReadMultiplePropertyAck`; triple induction (values, properties, objects) with explicit fuel bounds.  *Every object has at least one result, as the standard demands; results are value lists (error results: see DESIGN).*  Theorems: `c29_readmulti_ack_decoding`.

**C30 ReadPropertyMultiple ack decoding terminates** (partial).  For every fuel the result is `Fuel`: invariant "empty buffer, error set, at a value". Dichotomy: induction on the octets left, for the three nested loops and the date-time loop (`ProofsHang`).  *REFUTED: any ack cut after a value of a value list keeps the decoder looping for every amount of fuel. Proved for every input: within one round per octet the decoder is done, or it never is.*  Theorems: `c30_readmulti_ack_terminates_refuted`, `c30_cut_ack_hangs_partial`, `c30_hangs_or_ends_partial`.

**C31 WriteProperty request conformance** (partial).  Model: `enc_WriteProperty`; equality with the production, equivalence on values.  *REFUTED for the values of C07 and for binary points (C34); equivalence proved.*  Theorems: `c31_write_request_refuted`, `c31_write_request_exact_partial`.

**C32 WritePropertyMultiple request conformance** (partial).  Model: `enc_WriteMultiProperty`; exact octets by induction.  *REFUTED: priority has context tag 2 instead of 3, binary present values are not enumerated. Exact octets proved for all inputs; conforming without priorities.*  Theorems: `c32_writemulti_request_refuted`, `c32_writemulti_octets_exact_partial`, `c32_writemulti_request_partial`.

**C33 Invalid requests are refused before transmission** (partial).  Model: the four encoders on out-of-range references.  *REFUTED for every invalid reference: a header-only request is sent (single services) or another object addressed (multiple services).*  Theorems: `c33_invalid_refused_refuted`, `c33_invalid_read_exact_partial`, `c33_invalid_write_exact_partial`, `c33_multiple_services_alias_partial`.

**C34 Unwritable values are refused before transmission** (partial).  Model: the encoders and the calls `WriteProperty`, `WriteMultiProperty`; all values.  *REFUTED for present values of BO/BV: anything but uint32/null panics. Refusal proved everywhere else.*  Theorems: `c34_unwritable_refused_refuted`, `c34_binary_point_crash_exact_partial`, `c34_unwritable_refused_partial`, `c34_writemulti_refused_partial`.

**C35 No datagram crashes the receiver** (partial).  Model: `handleMsg`; all byte strings. Spec: `SpecExact` describes on octets alone when taking a value crashes (`take_value`, `crash_within`); `ProofsTaking` shows that the decoder does what it says.  *REFUTED: short Forwarded-NPDU frames and I-Am payloads that panic in the value decoder. Proved for all byte strings: the receiver crashes exactly on these (necessary and sufficient condition, stated on the octets alone).*  Theorems: `c35_no_crash_refuted`, `c35_crash_exact_partial`.

**C36 Receive dispatch** (partial).  Model: `handleMsg` to effects. Spec: `SpecObs` parses a frame independently; `SpecExact` gives the contents of I-Am (`iam_octets`) and Error PDUs (`error_octets`) on octets alone.  *REFUTED: confirmed requests from others are delivered to the transaction with the same invoke id. Soundness proved for all byte strings, exact effect for every well-formed frame type; for all byte strings the exact condition under which something is handed to a transaction or published as an I-Am, stated on the octets alone.*  Theorems: `c36_dispatch_refuted`, `c36_only_what_the_frame_says_partial`, `c36_acks_partial`, `c36_errors_partial`, `c36_iam_partial`, `c36_requests_delivered_partial`, `c36_other_services_ignored_partial`, `c36_deliveries_exact_partial`, `c36_published_exact_partial`.

**C37 Every final answer ends the transaction** (partial).  Same on Reject, Abort, SegmentAck frames.  *REFUTED: every Reject, Abort and SegmentAck is dropped.*  Theorems: `c37_final_answers_refuted`, `c37_dropped_exact_partial`.

**C38 Forwarded broadcasts are understood** (partial).  Same on Forwarded-NPDU frames.  *REFUTED: the 6-octet origin is parsed as NPDU; frames forwarded for 10.0.0.x:47808 go to transaction 186.*  Theorems: `c38_forwarded_refuted`, `c38_origin_not_skipped_exact_partial`, `c38_net10_misdelivered_partial`.

**C39 End-to-end ReadProperty** (proved).  Composition of `ReadProperty`, the frame built, `handleMsg` on the answer and the decoder.  *request octets, receive path and decoder composed, any list of supported values*  Theorems: `c39_read_end_to_end`.

**C40 Bounded retries** (proved).  Model: the four calls; any environment; induction on the attempts.  *any environment; a call that crashes does so before its first transmission*  Theorems: `c40_read_tries`, `c40_write_tries`, `c40_readmulti_tries`, `c40_writemulti_tries`.

**C41 Successful write means acknowledged write** (partial).  Model: `WriteProperty` and `WriteMultiProperty` with the payload taken from `handleMsg` of a received frame. The exact theorems give the outcome of either call as a function of what each attempt heard (`write_outcome`, `multi_outcome` in SpecClient.v).  *REFUTED: a confirmed request with the same invoke id counts as acknowledgement; proved that only that or an ack does, and for both write calls the exact outcome and number of attempts for every history of answers.*  Theorems: `c41_write_acknowledged_refuted`, `c41_write_success_partial`, `c41_write_exact_partial`, `c41_writemulti_exact_partial`.

**C42 Requests respect the device's maximum APDU** (proved).  Model: `ReadMultiProperty`, `WriteMultiProperty`; every datagram transmitted.  *packets below 4 GiB (the length is compared as uint32)*  Theorems: `c42_readmulti_limit`, `c42_writemulti_limit`, `c42_zero_refused`.

**C43 Frames to routed devices are well formed** (partial).  Exact frames of the four calls, then the independent frame parser of `SpecObs`.  *REFUTED for MAC addresses of 2 or more octets and for WriteMultiProperty to discovered devices; exact frames proved for all MAC lengths.*  Theorems: `c43_routed_frames_refuted`, `c43_read_exact_partial`, `c43_write_exact_partial`, `c43_readmulti_exact_partial`, `c43_writemulti_exact_partial`, `c43_discovered_length_partial`.

**C44 Broadcast or unicast is chosen by the destination** (partial).  Model: `send_func`, `whois_dest`.  *REFUTED: local Who-Is goes to the broadcast IP with the unicast function; exact choice proved.*  Theorems: `c44_broadcast_function_refuted`, `c44_whois_function_exact_partial`, `c44_send_function_exact_partial`.

**C45 Who-Is result** (proved).  Model: `whois_result`, `whois_sub` over any sequence of publications; induction with the set of seen instances.  *for every sequence of publications*  Theorems: `c45_whois_result`, `c45_whois_order`.

**C46 Who-Is range on the wire covers the request** (partial).  Model: `whois_frame` and the reading of its limits.  *REFUTED for bounds of 2^32 and more (truncated); proved below 2^32, and the exact condition for all bounds.*  Theorems: `c46_whois_covers_refuted`, `c46_whois_covers_partial`, `c46_whois_exact_partial`.

**C47 Object list chunking** (proved).  Model: `chunks`, `range_props`, `objectsRange`; concatenated indices = 1..n.  *any list length below 2^32; groups fit from 20 octets (local) or 40 octets (routed)*  Theorems: `c47_chunks`.

**C48 Object list reading never crashes** (partial).  Model: `Objects` with any environment. `set_info_crash`: exact condition by induction over the results; the types on the map never change, so the keys of a group are present (`objects_crash_causes`).  *REFUTED: advertised maximum below 20 octets divides by zero; fewer results than asked for index out of range. Proved to return for devices reached directly or behind routers with one-octet addresses, with at least 20 octets, that answer (or not) with one result per property or errors. For all devices and answers: the complete list of causes of a crash, and exactly which answers to the request for names crash.*  Theorems: `c48_never_crashes_refuted`, `c48_small_apdu_crash_exact_partial`, `c48_objects_return_partial`, `c48_crash_causes_partial`, `c48_names_crash_exact_partial`.

**C49 Objects() returns the device's objects** (partial).  Model: `Objects` against a spec device that answers its list and names; induction over chunks and groups of five, any map order.  *REFUTED for advertised maximum below 61 octets and types above 128; exact result and frames proved for every list and iteration order of the object map, for devices reached directly or behind routers with one-octet addresses: names exactly for standard types, and failure exactly at the first group whose request exceeds the maximum.*  Theorems: `c49_objects_refuted`, `c49_objects_exact_partial`.

**C50 Invoke ids are unique while in use** (proved).  Model: ModelTsm. Invariant over all reachable states: the ids free, held by a goroutine and in the table are a permutation of 1..254.  *all interleavings of any number of goroutines over the small-step model of tsm; misuse by callers (Put of foreign ids) included*  Theorems: `c50_invoke_ids_unique`.

**C51 Concurrency limit and conservation** (proved).  Same invariant with slots; liveness as existence of a completing run.  *conservation in every reachable state, exact when nobody is inside a call, and ID succeeds below the limit*  Theorems: `c51_conservation`, `c51_nothing_lost`, `c51_id_succeeds_below_limit`.

**C52 Releasing an id never blocks** (proved).  Same; the length and slot bounds make the channel operations non-blocking.  *Put runs to its end by its own steps; a Put of an id not in progress changes nothing*  Theorems: `c52_put_completes`, `c52_second_put_refused`, `c52_slot_goes_back`.

**C53 A reply reaches only its own transaction** (partial).  Same model with ghost serial numbers; witness run, and an invariant relating channel, object and transaction.  *REFUTED: the pooled state object of a released transaction is reused and a Send still pending on it reaches the next transaction. Proved: only through such a Put and reuse.*  Theorems: `c53_own_transaction_refuted`, `c53_own_transaction_partial`, `c53_no_reuse_partial`.

**C54 Late and duplicate replies are harmless** (partial).  Witness runs; invariant: the channel of a table entry is open unless its Put is under way.  *REFUTED: a Send overtaken by the Put of its transaction panics (send on closed channel). Proved: this is the only way to crash and replies after Put are refused.*  Theorems: `c54_duplicate_reply_refuted`, `c54_late_reply_refuted`, `c54_overtaken_never_returns`, `c54_crash_only_overtaken_partial`, `c54_reply_after_put_partial`.

**C55 Subscribers receive only their range, in order, without loss or duplication** (proved).  Model: ModelUtsm. Invariant per subscriber: received ++ queue ++ in flight = published in range.  *received ++ queued = published in range, in order, for every interleaving; while a Publish is under way its own value may still be on the way. Subscribe returns a prefix that misses at most one (queued at the timeout).*  Theorems: `c55_received_exact`, `c55_returned_prefix`.

**C56 Publish and Subscribe never deadlock** (partial).  Witness runs to a deadlock; invariant describing every stuck state; the fatal states are characterised exactly (doomed states persist; from any other state a schedule that empties the channels first lets every call return, ProofsFate.v).  *REFUTED: two publications before the subscriber is back at its select block the whole manager for ever. Proved: no other deadlock exists, a Publish that finds room returns, the states from which nothing ever happens again are exactly those in which a publisher has still to serve a subscriber with a full channel that takes nothing any more, and from all others every call in progress can return.*  Theorems: `c56_no_deadlock_refuted`, `c56_timeout_deadlock_refuted`, `c56_embrace_forever`, `c56_only_embrace_partial`, `c56_publish_completes_partial`, `c56_silent_exact_partial`, `c56_returns_partial`.

**C57 Unsubscribing affects nobody else** (proved).  Model: `remove_sub` (slice copy); list induction, and the run-level statement.  Theorems: `c57_remove_exact`, `c57_remove_list`, `c57_remove_absent`, `c57_registered_iff`.

**C58 Object map JSON round trip** (partial).  Model: `marshal_map`, `unmarshal_map`, tables of names; JSON text itself taken as the identity.  *REFUTED: objects of types without a JSON name come back as analog inputs and a nil target map panics. Proved: maps of named types come back for every member order; exact description of what moves otherwise. The JSON text layer is taken as the identity.*  Theorems: `c58_round_trip_refuted`, `c58_nil_target_refuted`, `c58_known_types_partial`, `c58_round_trip_exact_partial`.

**C59 Bit string get/set laws** (proved).  Model: `bs_Bit`, `bs_SetBit`.  Theorems: `c59_bit_get_set`.

**C60 Device address round trip** (proved).  Model: `NewBDevice`, `ReadProperty`, `WriteProperty`; text of the address parsed back.  *created device -> datagram destination and NPDU of every read and write; port 0 means 47808, network 0 the local one*  Theorems: `c60_read_goes_there`, `c60_write_goes_there`.

**C61 Port validation** (proved).  Model: the regular expression as alternatives of repeated ranges over the decimal text; digit lemmas and a sweep over 0..99999 in blocks.  *all integers; the regular expression is modelled as such*  Theorems: `c61_valid_port`.

**C62 Effective priority value** (proved).  Model: `HighestFloat32`.  Theorems: `c62_highest_first`, `c62_highest_none`.

**C63 Priority array of an analog object can be read** (partial).  Model: `BuildFloat32`; float32 conversion specified as nearest even.  *REFUTED: a Real in the array panics (both branches assert uint32). Proved: arrays of nulls and unsigned values come back rounded to the nearest single; every other array of 16 values crashes the caller.*  Theorems: `c63_priority_array_refuted`, `c63_unsigned_arrays_partial`, `c63_priority_exact_partial`.

**C64 Supported-services table** (proved).  Model: `svc_GetType`, `svc_GetString`, table; any permutation of the map.  *against the bit positions of the standard, any iteration order of the map*  Theorems: `c64_known_service`, `c64_unknown_service`.

**C65 Local network device keeps its identity** (partial).  Model: `NewDevice` of package network.  *REFUTED: the port is never passed on (47808 always) and the object identifier has instance 0. Proved: everything else is kept, the device is stored and found.*  Theorems: `c65_identity_refuted`, `c65_opened_device_exact_partial`.

**C66 Device discovery lists distinct devices** (partial).  Model: `DeviceDiscover` with the pointer aliasing explicit.  *REFUTED: the receiver pointer is appended again and again. Proved: exactly n equal entries with the data of the last device.*  Theorems: `c66_distinct_devices_refuted`, `c66_discover_exact_partial`.

**C67 Device object list of any length** (partial).  Model: `DeviceObjects`, `deviceObjectsBuilder` against a spec device.  *REFUTED: a one-element list is returned empty; an unreadable element panics. Proved: all other lists, of any length, whole or read one by one.*  Theorems: `c67_one_object_refuted`, `c67_missing_element_refuted`, `c67_objects_exact_partial`, `c67_one_by_one_partial`.

**C68 Client bound to an address uses the caller's subnet and port** (partial).  Model: `NewClient`, `NewUDPDataLinkFromIP`, `NewUDPDataLink`.  *REFUTED: subnet and port are exchanged, so with any port above 32 no link is made. Proved: exact behaviour, and correctness when opened by interface in CIDR notation.*  Theorems: `c68_client_from_ip_refuted`, `c68_client_from_ip_exact_partial`, `c68_client_from_interface_partial`.

**C69 Broadcast address of the subnet** (proved).  Model: `dataLink`; bit by bit.  *bit by bit, for all addresses and mask lengths*  Theorems: `c69_subnet_broadcast`, `c69_port_in_use`.

**C70 Per-property errors do not hide the other values** (partial).  Model: `dec_ReadMultiplePropertyAck`, `ReadMultiProperty` on answers with an error result.  *REFUTED for every such answer: the first property error becomes the error of the whole call.*  Theorems: `c70_property_errors_refuted`, `c70_property_error_fails_all_exact_partial`.

**C71 A reply to a waiting caller is delivered** (proved).  Model: ModelTsm; from every reachable state with a waiting receiver a three-step run delivers.  Theorems: `c71_reply_delivered`.

**C72 A device needs a valid IPv4 address** (partial).  Model: `ParseIP` (see C134), `ip2bytes`, `NewBDevice`.  *REFUTED: any text without IPv4 meaning, IPv6 addresses included, is accepted and 0.0.0.0 contacted. Proved: this happens for exactly these texts; dotted and IPv4-mapped texts give their address.*  Theorems: `c72_invalid_ip_refuted`, `c72_invalid_ip_exact_partial`, `c72_valid_ip_partial`.

**C73 Index of a supported service** (partial).  Same table as C64.  *REFUTED from readPropertyMultiple on; exact formula proved.*  Theorems: `c73_index_refuted`, `c73_index_exact_partial`.

**C74 Devices can be opened on any network obtained from the package** (partial).  Model: `New`, `Store_NewNetwork`, `NewDevice`.  *REFUTED: networks of Store.NewNetwork have a nil Store. Proved for networks of network.New with a store.*  Theorems: `c74_open_on_stored_network_refuted`, `c74_new_without_store_refuted`, `c74_network_partial`.

**C75 Store lookups return what was stored or an error** (partial).  Model: `store_Get`, `store_Set`, `GetDevice`, `GetNetwork`, `UpdateDevice`.  *REFUTED: the id of another kind panics. Proved: the get/set laws.*  Theorems: `c75_wrong_kind_refuted`, `c75_device_stored_partial`, `c75_network_stored_partial`, `c75_lookup_exact_partial`.

**C76 Point reads return the device's value or an error** (partial).  Model: `Read`, the point and name reads, `ToFloat32`, `ToUint32`, `ToStr`.  *REFUTED: a value of another type is reported as 0 or an empty text with a nil error. Proved: exactly what is returned for every answer, and errors for failures.*  Theorems: `c76_point_read_refuted`, `c76_point_float_exact_partial`, `c76_point_unsigned_exact_partial`, `c76_names_exact_partial`, `c76_string_exact_partial`, `c76_failed_read_partial`, `c76_read_sends_partial`.

**C77 Point writes are requests for exactly that point and value** (proved).  Model: `Write` and the point writes down to the datagrams.  *analogue writes to other types than 4 and 5 (see C78); texts up to 60000 octets*  Theorems: `c77_point_writes`, `c77_point_write_frames`.

**C78 Point writes never crash** (partial).  Same.  *REFUTED: analogue write to a binary output or value. Proved: no other write of a writable value crashes.*  Theorems: `c78_write_never_crashes_refuted`, `c78_write_total_partial`.

**C79 Invalid priorities are refused** (partial).  Same, priorities 0..255.  *REFUTED for writes; PointReleasePriority does refuse.*  Theorems: `c79_bad_priority_refused_refuted`, `c79_release_refuses_partial`.

**C80 Releasing a priority** (proved).  Model: `PointReleasePriority`.  Theorems: `c80_release`.

**C81 NetworkDiscover keeps what devices announced** (partial).  Model: `NetworkDiscover`, `net_GetDeviceDetails`.  *REFUTED: APDU size and segmentation become 0 when the reads fail. Proved: exact entry of every device.*  Theorems: `c81_announced_kept_refuted`, `c81_network_discover_exact_partial`.

**C82 Device details** (partial).  Model: `GetDeviceDetails`.  *REFUTED: no error is ever returned and services are not read. Proved: exact result for every combination of answers and failures.*  Theorems: `c82_details_refuted`, `c82_details_exact_partial`.

**C83 Points of a device** (proved).  Model: `GetDevicePoints`, `PointDetails`.  *relative to the list DeviceObjects returns (C67)*  Theorems: `c83_device_points`, `c83_listed_points`.

**C84 The discovery scan asks in batches of the scan size** (partial).  Model: `scan_ranges`, `whois_frame`.  *REFUTED: the first request asks for everything, size 0 panics, sizes above 4194303 ask nothing. Proved: exact requests and coverage.*  Theorems: `c84_scan_batches_refuted`, `c84_scan_zero_refuted`, `c84_scan_large_refuted`, `c84_scan_exact_partial`, `c84_scan_covers_partial`.

**C85 Closing a client frees its socket** (partial).  Model: `ClientClose`.  *REFUTED: with closeLogs it closes standard error instead. Proved: exactly when the socket is closed.*  Theorems: `c85_close_refuted`, `c85_close_exact_partial`.

**C86 A reply as large as the client announced is received whole** (partial).  Model: `udpReceive` (buffer of MaxPDU octets), `handleMsg`; prefix lemma for the frame decoders.  *REFUTED: the receive buffer has the announced size but also holds the lower-layer header; a conforming 1475-octet ack is cut and the cut ack hangs the decoder (C30). Proved: exactly the octets that fit are delivered; every reply that fits with its header is delivered whole.*  Theorems: `c86_full_size_reply_refuted`, `c86_delivered_exact_partial`, `c86_fitting_reply_partial`.

**C87 A datagram from any source address is handled** (partial).  Model: `To4`, `udpReceive`.  *REFUTED: the socket is dual-stack and an IPv6 source crashes Receive. Proved: it crashes exactly for non-IPv4 sources; every IPv4 or mapped source is reported as it is.*  Theorems: `c87_any_source_refuted`, `c87_crash_exact_partial`, `c87_ipv4_source_partial`.

**C88 The client keeps receiving** (partial).  Model: `ClientRun` over a list of socket events; induction.  *REFUTED: the first receive error ends the loop. Proved: until then every datagram is handed on once, in order.*  Theorems: `c88_receives_again_refuted`, `c88_every_datagram_partial`, `c88_until_error_partial`.

**C89 Network-layer messages never reach a transaction** (partial).  `handleMsg` on a network message equals `handleMsg` on the frame with the flag cleared.  *REFUTED: the rest of the frame is handled as an APDU. Proved: exactly so for all message types but 1, 19 and 128; without contents nothing happens.*  Theorems: `c89_network_message_refuted`, `c89_handled_as_apdu_exact_partial`, `c89_no_contents_partial`.

**C90 Router discovery returns every announced network** (partial).  Induction over the list of messages; `whoisrouter_result`, `netmsg_frame`.  *REFUTED: only the first two networks of a message are returned, none if it lists one. Proved: exact result for all sequences of messages, and the request.*  Theorems: `c90_routers_refuted`, `c90_routers_exact_partial`, `c90_request_partial`.

**C91 WhatIsNetworkNumber returns the announced numbers** (proved).  Same with `whatnetwork_result`.  Theorems: `c91_network_numbers`, `c91_request`.

**C92 The discovery command loses no device** (partial).  State machine `pstep` (main, feeder, workers, merger, two channels); invariants by induction over `pexec`; a decreasing weight for termination. The command package does not compile as a whole (see below); the function is modelled as written.  *REFUTED: results are saved without waiting for the merging goroutine; no worker hangs, a negative number panics. Proved for all interleavings: what is saved was read, no instance twice, at most as many devices lost as there are workers, progress and termination.*  Theorems: `c92_nothing_lost_refuted`, `c92_no_worker_refuted`, `c92_negative_refuted`, `c92_saved_partial`, `c92_progress_partial`, `c92_ends_partial`.

**C93 Concurrent calls do not disturb each other** (partial).  Model: `ModelSystem`, the product of the calls, `handleMsg` and the transaction manager; every call is a program over its answers, proved equal to the sequential model (`alone_interp`). Invariants over all runs (`wreach`).  *REFUTED: with a recycled state object a call returns the value another device sent for another call (full execution given). Proved for all executions: every finished call behaved as alone in some environment whose answers all arrived, for its own id if no state object was recycled.*  Theorems: `c93_as_if_alone_refuted`, `c93_as_if_alone_partial`.

**C94 Calls in progress never share an invoke id** (proved).  Invariant: the calls in progress correspond one to one to the entries of the transaction table.  Theorems: `c94_ids_distinct`.

**C95 Calls give back what they took** (proved).  Same invariant with the conservation law of C51.  Theorems: `c95_everything_given_back`, `c95_next_call_gets_id`.

**C96 A call never finds its transaction missing or closed** (proved).  Same invariant: a call that has not begun Put owns an open entry.  Theorems: `c96_transaction_stays`.

**C97 Well-formed answers never bring the process down** (partial).  Induction over runs, C54 for the manager.  *REFUTED: a device that answers twice crashes the process. Proved for all executions: the only causes are an answer overtaken by Put, a datagram whose handler panics, and a call that panics alone.*  Theorems: `c97_stays_up_refuted`, `c97_panic_outside_partial`, `c97_panic_inside_partial`.

**C98 No call waits for ever** (proved).  For every phase of a call a schedule is constructed: the holder of the mutex finishes Put, every attempt times out; induction over the program of the call.  *a decoder that loops (C30) is excluded by [stuck]*  Theorems: `c98_no_deadlock`.

**C99 An answer ends the call that waits for it** (proved).  Explicit schedule from any reachable state; C71.  Theorems: `c99_answer_ends_call`.

**C100 Only the device asked can answer a call** (partial).  Case analysis of `handleMsg`; an execution.  *REFUTED: the source address is not looked at. Proved: it never makes a difference.*  Theorems: `c100_only_the_device_answers_refuted`, `c100_source_ignored_partial`.

**C101 Names of properties** (proved).  `prop_Get`, `prop_Keys`, `prop_String` over the two tables, against a separate table of the standard; case analysis lifted to all texts by correctness of text equality.  Theorems: `c101_names`, `c101_listed`, `c101_one_to_one`, `c101_shown`.

**C102 The write command writes only values it understood** (partial).  `writeProp` composes `ReadProperty` and `WriteProperty` (proved frames of C77); `strconv.ParseFloat` and the conversion of floats to integers are arbitrary functions `conv`.  *REFUTED: the conversion error is only logged; the result of the failed conversion (0) is written. Proved: the exact frames for every answer of the device and every text.*  Theorems: `c102_unparsable_written_refuted`, `c102_written_exact_partial`, `c102_other_types_exact_partial`, `c102_no_answer_partial`, `c102_no_value_partial`.

**C103 The write command keeps the datatype of a property** (partial).  Composition of C102 (what is written against an answering device) with a comparison of the first octet of the value written with that of the value read, for all datatypes.  *REFUTED: enumerated properties are overwritten with an unsigned number. Proved: exactly when the datatype is kept.*  Theorems: `c103_datatype_refuted`, `c103_datatype_exact_partial`.

**C104 The write command writes the property it was asked to** (partial).  `Atoi` and `prop_Get` proved to select the property (`flag_asks`); an unknown name behaves as the text 0 for all environments.  *REFUTED: the error of Get is assigned to a shadowed variable, an unknown name becomes property 0. Proved: for known names and numbers the frames are those of the property asked for (with c102_written_exact_partial).*  Theorems: `c104_property_refuted`, `c104_unknown_exact_partial`, `c104_release_partial`, `c104_frames_partial`.

**C105 The read and whois commands do their work** (partial).  `readProp` starts with `New` without a Store (C74).  *REFUTED: both commands crash in network.New because they pass no Store. Proved: beyond that the read command would crash on every value but a bit string.*  Theorems: `c105_read_command_refuted`, `c105_network_commands_refuted`, `c105_read_end_exact_partial`.

**C106 Instances of the library find each other** (proved).  `IAm_frame`, `handleMsg`, `published` and `whois_returns` composed: exact frame (C19), its effect on any receiver, and C46/C47 of the collected answers; other traffic is an arbitrary list of datagrams.  *IAm, the receive path and WhoIs composed.*  Theorems: `c106_instances_meet`.

**C107 Requests to a device found by WhoIs reach it** (partial).  As C106 for any I-Am frame of the standard, then `ReadProperty` on the entry found (C39, C43).  *REFUTED: the station address of a routed device is cut to one octet (C43), so devices with longer addresses are not reached. Proved: local devices are reached and their answer is returned; a routed device is reached exactly when its address is one octet.*  Theorems: `c107_found_reached_refuted`, `c107_found_local_partial`, `c107_found_routed_exact_partial`.

**C108 Calls that share a client do not disturb each other unless answers come late** (proved).  Invariant over runs of `wexec` (`ordered`): every running handler answers a call that is running and found this call's transaction; every reply in the history of a call answers one of its transmissions. Then C93's replay of the history, and C39/C22 for the value.  *The positive counterpart of C93, C97 and C100: the assumption is about the network only (no late answers), not about sync.Pool.*  Theorems: `c108_own_answers`, `c108_no_crash`, `c108_reads_right`, `c108_writes_confirmed`.

**C109 A discovery call returns what was announced while it was registered** (proved).  `ModelScan`: `yexec` runs calls, sending goroutines, receive handlers and `uexec` (C55-C57) together. Invariant `yinv` ties the phase of every goroutine to its place in the manager and the log to the published messages; C55 gives the prefix; `gone`/`yuniq` that subscribers are never shared; C45 the entries. The variable `err` shared by call and goroutine is explicit.  *All discovery calls, their sending goroutines, the receive handlers and the publish/subscribe manager as one state machine.*  Theorems: `c109_exact`, `c109_found`, `c109_sent`.

**C110 Devices that answer a Who-Is in time are found** (partial).  Two runs by `vm_compute`, with I-Am frames of the standard; the positive part follows from C109.  *REFUTED: the request is sent before or while the call registers, so an answer handled before that is lost; so is the one still in the channel when the timeout fires. Proved: what is announced while the call is registered is found if anything else in range is announced afterwards.*  Theorems: `c110_answer_found_refuted`, `c110_last_found_refuted`, `c110_followed_partial`.

**C111 Discovery calls return** (partial).  `doomed_forever` (C56) lifted to `yexec`; progress by `freed_all` and `ended_all` (C56) lifted step by step; calm runs by the invariant that whoever is still to be served has an empty channel. Not excluded in the positive part: that the handler publishing at the moment crashes the process right afterwards (C33), hence `holder_safe`.  *REFUTED: two I-Ams around the timeout and the call, and every later one, hangs for ever (C56). Proved: exactly the stuck states are final; in all other states every waiting call can return; spaced announcements never lead to a stuck state.*  Theorems: `c111_returns_refuted`, `c111_stuck_partial`, `c111_returns_exact_partial`, `c111_calm_partial`.

**C112 A discovery call whose request could not be sent returns an error** (partial).  One run by `vm_compute`; invariant over pairs of steps Send/channel; with the clock (ProofsLeak) the invariant `reported`: the transmission is over before the clock moves, and Subscribe returns 2 s after the start at the earliest (`slow`, C132).  *REFUTED: Subscribe overwrites the shared err before the sending goroutine reads it; the two network calls drop the error altogether. Proved: WhoIs reports it exactly when the sending goroutine is not interrupted between Send and the channel, and in every timed execution in which time passes only while nothing can go on.*  Theorems: `c112_error_reported_refuted`, `c112_silent_partial`, `c112_prompt_partial`, `c112_in_time_partial`.

**C113 Texts of enumerations tell numbers apart** (proved).  `ModelNames`: the concatenated names, index tables and range tests of the String methods, with indexing and slicing that panic. Sweeps over the tables; everything else is decimal notation, injective by `numeral_digits`; names contain no parenthesis.  *The generated String methods with their index tables, slices that could panic, against the declared constants.*  Theorems: `c113_texts`, `c113_apart`, `c113_unambiguous`.

**C114 The error of a read names the class and code the device sent** (partial).  Error PDU through `handleMsg` (C36), delivered to the call (C39) and turned into text by `error_text`; the text is split again at the first space after the class.  *REFUTED: an UnknownProperty error is returned as "error class PropertyError code ErrorCode(145)" (C22). Proved: the exact text for every class below 240 and code below 256; the right one for bracketed errors; texts identify class and code.*  Theorems: `c114_error_named_refuted`, `c114_standard_exact_partial`, `c114_bracketed_partial`, `c114_unambiguous_partial`, `c114_texts_partial`.

**C115 The unit name of a point is the device's** (partial).  `PointDetails` (C83) with the unit name computed by `unit_String`.  *REFUTED: the error of the read is dropped, so a point whose unit cannot be read is reported in "SquareMeters"; and unit 65598 as "DegreesCelsius" (truncation to uint16). Proved: the exact name for every answer and failure.*  Theorems: `c115_unit_name_refuted`, `c115_exact_partial`, `c115_binary_partial`.

**C116 Answers to ReadPropertyMultiple written by the library are standard answers** (partial).  `enc_ReadMultiplePropertyAck` with `binary.Write` of values of fixed size (`bin_value`); induction over the objects and their properties; the first untagged octet differs from the tag of the value, or the closing tag comes where a fourth octet should.  *REFUTED: values are written without tag, and a second time after the closing tag. Proved: the exact octets for every list of objects, which values are refused, and that the answer is never the standard one.*  Theorems: `c116_multi_ack_refuted`, `c116_octets_exact_partial`, `c116_refused_partial`, `c116_never_standard_partial`.

**C117 Date patterns are recognised as the standard defines them** (partial).  The five predicates of encoding/date.go applied to the date read by `reads` (C08).  *REFUTED: day 33 (odd days) counts as even, 32 (last day) also as odd, 34 (even days) as nothing. Proved: the exact table for every decoded date; months and last day are right.*  Theorems: `c117_patterns_refuted`, `c117_patterns_exact_partial`.

**C118 Reads and writes show what the device does, whatever the network loses** (proved).  Spec: a device is a state machine (`machine`), `react` turns its moves into the octets of the standard, `fate` says what the network does to an attempt, `hosts` ties the environment of a call to both through the receive path `handleMsg`. One call by cases on the fates (`call_settles`), sessions by induction; `ought` knows nothing of frames, ids and attempts.  *For every state machine answering by the standard, every loss and every sequence of calls; c118_possible: every course of calls and losses occurs.*  Theorems: `c118_session`, `c118_possible`.

**C119 A client reads its own writes** (proved).  From C118 for machines with `memory`; invariant "an untouched property keeps its value" by induction over the session.  *For every device whose properties keep what is written and do not influence each other.*  Theorems: `c119_read_your_writes`, `c119_write_effect`, `c119_origin`.

**C120 Commanding points follows the priority array** (proved).  The priority array of clause 19.2 as a machine (`commandable`); the calls of package network are the requests `means` followed by a conversion; a command is idempotent, so retransmissions count once.  *For every state of the priority arrays; analog points with reals, binary and multi-state points with numbers (other uses: C76-C79).*  Theorems: `c120_points`, `c120_shows`, `c120_release`, `c120_apart`, `c120_possible`.

**C121 Reading several properties at once gives the state of one moment** (proved).  Spec: `item`/`spec_multi_answer` is the mixed answer (values and access errors) of the device in the state of that attempt; `snapshot` the properties of one state as the API shows them. The answer is either a full acknowledgement or starts like one and fails (`answer_shape`, induction over objects and properties), decoded by the lemmas of C29; then cases on the fates of two attempts.  *For every state machine answering by the standard whose state may change between the attempts; c121_possible: every fate of the messages occurs.*  Theorems: `c121_outcome`, `c121_one_moment`, `c121_possible`.

**C122 Writing several properties at once does what the device reports** (proved).  Spec: `carry_out` is the in-order, stop-at-first-refusal semantics of 15.10, `spec_multi_error` the WritePropertyMultiple-Error; the call by cases on the fates, with the state threaded through the attempts; `carry_memory` by induction over the writes.  *Devices on the local network (others: C43); writes without priority and of standard values (others: C32). A refused list is carried out a second time.*  Theorems: `c122_outcome`, `c122_stored`, `c122_possible`.

**C123 Calls that share a client behave as if each took place at one moment** (partial).  The concurrent system of ModelSystem joined with machines (`jstep`): clients, timers and handlers step one by one, devices carry out transmitted requests, `explained`/`linearizable` speak of histories only. Invariant `jinv` over all executions: what a call will return is tied to a moment recorded in the history (`tied`), the invoke id keeps answers apart (C93 excludes late ones), a request datagram determines the request (`datagram_inj`). The counterexample is an execution computed step by step, and no order of moments explains its history (`lin_not`, for all orders).  *REFUTED: a write whose answer is lost is transmitted again and may then undo the later, confirmed write of another goroutine. Proved for all executions: each result is that of a moment during its call, no call is carried out more than twice, reads only once; linearizable if no write is carried out twice, in particular for reads.*  Theorems: `c123_linearizable_refuted`, `c123_explained_partial`, `c123_twice_partial`, `c123_linearizable_partial`, `c123_reads_partial`.

**C124 Scanning a device that changes finds every object that was there all the time** (partial).  SpecInventory: `holds` says what a machine answers when its inventory is `v`; `hosts_scan` relates every attempt of every call of the scan to a state, freely changing. C121 gives each call; induction over parts and groups of five collects them (`scan`). The counterexample is computed; `c124_possible_partial` shows that every course of changes and losses occurs.  *REFUTED: an object put at the front of the list between two parts of the scan makes Objects succeed without an object that was there all the time. Proved for all scans: the other claims, and completeness for objects that keep their place; an unchanging list is returned whole or an error is. Objects of standard types (others: C49).*  Theorems: `c124_complete_refuted`, `c124_faithful_partial`, `c124_place_partial`, `c124_unchanged_partial`, `c124_possible_partial`, `c124_device_partial`.

**C125 Requests and discovery on one client do not disturb each other** (proved).  ModelWhole runs ModelSystem and ModelScan on the same goroutines; a handler comes to the delivery when its publications are made. Every run projects to a run of each side with the same calls and datagrams (`projects`, induction over the run), so the invariants of C93-C100 and C109-C112 carry over; conversely a run of one side whose steps are in progress already is one of the whole with the other side unchanged. `c125_after_hang` computes a run in which discovery has hung for all continuations and a read then succeeds.  *Holds although single calls misbehave as C93, C97, C110 and C111 say: the other kind of call is not affected, except that a panic ends the process.*  Theorems: `c125_requests`, `c125_scans`, `c125_request_result`, `c125_scan_result`, `c125_found`, `c125_request_ends`, `c125_answer_ends`, `c125_scan_ends`, `c125_after_hang`.

**C126 Every request returns** (partial).  Spec: `execution` is an infinite sequence of steps of ModelWhole, `fair` says that every goroutine moves again or is blocked for ever. A measure of the steps a call has left falls with each of its own steps (`own_step`) and is untouched by those of others (`other_step`); a call is blocked only by the mutex of the transaction table (`enabled`), whose holder is putting an id back and is never blocked, so it frees it (`released`); induction on the measure. `padded` turns every finite run that comes to rest into a fair execution, which gives the examples and the counterexample.  *REFUTED for ReadMultiProperty: the answer of C30 keeps it in its decoder in a fair execution. Proved for all fair executions: every other request returns, and so does ReadMultiProperty unless it meets such an answer; no call takes more than twenty steps of its own.*  Theorems: `c126_lists_refuted`, `c126_requests_return_partial`, `c126_steps`.

**C127 Every discovery call returns** (partial).  Spec: `deadlines` says that the time-out of Subscribe passes, `stuck` is the deadlock of C111. A measure falls with each step of the call except the rounds of its select (`y_own`), which `deadlines` ends (`drop`). The mutex of the manager is given back (`y_released`): its holder waits only for room in a channel, whose subscriber is at its select unless discovery is stuck (`awaited`), and empties it (`drained`). The converse is the persistence of `stuck` (`stuck_stays`). `halted_run` turns the run of C111 into a fair execution.  *REFUTED: two announcements that arrive as the time-out passes keep WhoIs for ever in a fair execution (C111). Proved for all fair executions: a call returns exactly if discovery does not get stuck while the call is in Subscribe, and it does not if announcements come one at a time.*  Theorems: `c127_hang_refuted`, `c127_exact`, `c127_scans_return_partial`.

**C128 Requests return in time** (partial).  ModelTime adds a clock and the ends of the waits to ModelWhole; a time-out fires only when its time has come, time passes between steps. Spec: `prompt` says that time passes only while no goroutine can go on. Invariant `high`: at each place of a call the time used so far is within that of the waits behind it; time passes only at a wait and not beyond its end (`idle_waits`, from the lock argument of C126). `c128_lists_refuted` computes a run to rest and lets any time pass.  *REFUTED for ReadMultiProperty: after the answer of C30 it does not return however long one waits. Proved for all prompt timed executions: every other request, and ReadMultiProperty unless it meets such an answer, has returned once its limit is over.*  Theorems: `c128_lists_refuted`, `c128_in_time_partial`.

**C129 No request gives up early** (proved).  The mirror invariant `low` for all executions: the time used so far is at least that of the time-outs behind the call. `says_why` ties the reported error to the history of the attempts (`blame`: a program returns a time-out only if an attempt timed out).  *For all timed executions, whatever the scheduler does.*  Theorems: `c129_never_early`, `c129_reported`.

**C130 An answer that comes in time is not lost** (proved).  The datagram is carried by a handler (`carried`: before its delivery, or at the three places of tsm.Send with the generation of the waiting call), which is kept by every step of every goroutine (`carry_step`; no other receiver has the channel, `same_channel`, from the invariants of C93). In a prompt execution time cannot pass meanwhile, since the handler, the holder of the lock or the call itself can go on (`bring_goes`).  *For datagrams that publish nothing to discovery, as every answer to a request does; one that also announces something waits for a hung discovery first (C111). The attempt may end with another answer to the same invoke id that was already on its way.*  Theorems: `c130_not_lost`.

**C131 Discovery calls return in time** (partial).  Spec: `never_stuck` says that no state of the run has the call in Subscribe while the manager is in the deadlock of C111 (`stuck`). Invariant `shigh`: the end of the wait is set 10 s after the call at the latest; time passes only while the call is in its select and not beyond the end (`idle_scan`: in a prompt execution the manager is then unlocked and nobody publishes). The converse is the persistence of `stuck` (`stuck_for_good`). For the silence, `still`: the last announcement is no later than the last publication. Announcements one at a time: the invariant of C111 (`cinv_zexec`). `c131_in_time_refuted` computes the run and lets any time pass.  *REFUTED: two announcements in the moment the time-out passes keep WhoIs for ever (C111), however long one waits. Proved for all prompt timed executions: after 10 s the call has returned exactly if discovery did not get stuck while it was in Subscribe; it has if announcements come one at a time; and unless discovery gets stuck it returns within 2 s of the last announcement.*  Theorems: `c131_in_time_refuted`, `c131_exact`, `c131_one_by_one_partial`, `c131_silence_partial`.

**C132 Discovery gives devices time to answer** (proved).  The mirror invariants for all executions: `slow` (the wait ends no earlier than 2 s after the call) and `late` (while a publication made after the given moment is at the channel, in it or in the store, the last announcement is no earlier), kept by every step of every goroutine (`touch_u`, `touch_y`); a publication is numbered by its place in the list of all (`pub_number`).  *For all timed executions, whatever the scheduler does.*  Theorems: `c132_never_early`, `c132_stays`.

**C133 What is announced while a discovery call listens is in its result** (proved).  The announcement is under way in a handler (`underway`: still to be published, or being published) until it has been made for the subscriber of the call (`made_for`, from the record of the manager), kept by every step (`underway_step`). When time passes in a prompt execution nobody publishes and the channel is empty, so that it is in the store (the invariant of C55 ties the record to channel and store); hence the time-out, which needs time to pass, finds it there (`tracked_run`).  *For every call that has returned; one that has not is stuck in the sense of C111 (C131). What arrives in the moment the wait is over, or before the call has registered, may be lost (C110).*  Theorems: `c133_heard`.

**C134 Constructing a client does not crash** (partial).  Model: `NewClient` as a function that may panic (`UDPToAddress` of a nil IP); `parseIPv4`, `parseIPv6`, `ParseIP`, `ParseCIDR` after net/ip.go of Go 1.17. Spec: the grammar of address texts of RFC 4291 (`ip6_text`: eight groups of hexadecimal digits of at most 16 bits, or fewer with `::`, the last two perhaps in dotted notation; any number of leading zeros, as Go reads them). `parse_exact`: the parser accepts exactly the texts of the grammar, with their meaning, by induction over the groups.  *REFUTED: a proper IPv6 address with a mask panics once the socket is open. Proved: exactly these texts and ports panic.*  Theorems: `c134_construction_refuted`, `c134_construction_exact_partial`.

**C135 A client for a named interface uses its first IPv4 address** (proved).  Model: `FindCIDRAddress`, `NewUDPDataLink`.  *The list of addresses of an interface is a parameter, in the notation the system reports.*  Theorems: `c135_named_interface`, `c135_unknown_interface`.

**C136 The notation of an IPv4 address does not matter** (partial).  Model: `dataLink` on sixteen octets (`mask`, the first four octets of network and mask).  *REFUTED: the broadcast address of every IPv4-mapped text with a mask of 96 or more is 0.0.0.0. Proved: that, and that every dotted text gives the subnet broadcast address.*  Theorems: `c136_mapped_refuted`, `c136_mapped_exact_partial`, `c136_dotted_partial`.

**C137 ValidIP accepts exactly the addresses** (partial).  Model: `NormaliseIPAddr`, `ValidIP`; from `parse_exact`.  *REFUTED: /128 is accepted after an IPv4 address, and /32 after IPv6 addresses that end in dotted notation. Proved: exactly the accepted texts, against a grammar of address texts.*  Theorems: `c137_suffix_refuted`, `c137_valid_ip_exact_partial`.

**C138 ValidCIDR accepts exactly the addresses with a possible mask** (proved).  Model: `ValidCIDR`; from `parse_exact` and the exactness of the printed number (`sprint_decimal`).  *Against the same grammar of address texts.*  Theorems: `c138_valid_cidr`.

**C139 A client shared by goroutines has no data races** (partial).  Model: `ModelWhole` (all interleavings of requests, deliveries, discovery calls). Spec: `SpecRace` lists which variable the next step of each goroutine accesses. Proved from the ownership counts of C50-C53, the uniqueness of transactions in progress (C94) and a new invariant for runs without recycling.  *REFUTED: a request that gets a recycled state object writes its channel field while the handler of a late answer may be reading it; every discovery call shares its variable err with the goroutine that transmits. Proved: every race of every execution is one of these two, a client without discovery calls and without recycling has none, and any waiting discovery call whose transmission is outstanding can come to the second.*  Theorems: `c139_no_race_refuted`, `c139_only_two_partial`, `c139_without_partial`, `c139_any_discovery_partial`.

**C140 Objects on a shared client does what it does on a client of its own** (partial).  ModelScript writes Objects as a `script`, the sequence of its requests as a function of their results; playing it against the answers of C35-C49 is `Objects` (`plays_objects`). Spec: `performs` says that goroutine i of a run of ModelTime begins only the next request of its script, others do what they like. A step that does not begin a request of i leaves its request or ends it (`moved_step`, all steps of ModelSystem), so the requests that return to i are those of the script (`performs_follows`); each is one of a call alone (C125), which gives the answers. `c140_clocked`: every run without a clock is one with a clock. The counterexample computes the run of C93 with Objects as the second call.  *REFUTED: the answer to another goroutine's request, overtaken by its time-out, is taken for the length of the list (C93): Objects returns an empty list although nothing has arrived for its request. Proved for all interleavings: datagrams and result are those of Objects alone for answers that have arrived, and for its own requests if the pool hands out new objects only.*  Theorems: `c140_crossed_refuted`, `c140_as_alone_partial`, `c140_clocked`.

**C141 How long Objects takes** (proved).  Induction over the run with the invariant of C128 for the request in progress (`busy`): each request adds at most its limit. A goroutine in the loop of a decoder stays there (`loop_stays`), so one that has returned never was. The number of requests follows from the script (`objects_requests`): one, one per part of the list (`chunk_count`), one per five objects; the object map only grows (`set_info_length`).  *For all prompt timed executions in which the caller goes on at once; encoding and decoding take no time.*  Theorems: `c141_returned`, `c141_success`, `c141_meanwhile`.

**C142 A closed client fails fast** (proved).  Invariant over the run from the beginning of the request (`dry`): as no transmission succeeds the call is never in tsm.Receive and has been told of nothing but failed transmissions; a program told only of errors ends with an error (`start_sour`, all four services). Time: with `idle_waits` of C128 it waits nowhere but for its id. A call that has returned has not panicked (`clean_run`, all steps of ModelSystem).  *The closed socket is a run in which no transmission succeeds; discovery calls on a closed client are the matter of C112. Executions in which the process has panicked are left out.*  Theorems: `c142_fails`, `c142_fast`.

**C143 The scans of package network on a shared client do what they do on a client of their own** (partial).  ModelNetScript writes the functions of package network after their Who-Is as scripts (see C140); playing them against the answers of C35-C49 gives the functions of ModelNet (lemmas `plays_…` of ProofsNetScript), so `script_alone` of C140 applies. The counterexample computes the run of C93 with a NetworkDiscover as the second call.  *REFUTED: a late answer to another goroutine's request is taken for the name of a device (C93): device 2 is listed with the name of device 1. Proved for all interleavings: requests and result are those of the scan alone for answers that have arrived, and for its own requests if the pool hands out new objects only. The Who-Is the scans begin with is the matter of C109-C112, C127.*  Theorems: `c143_crossed_refuted`, `c143_discover_partial`, `c143_devices_partial`, `c143_objects_partial`, `c143_points_partial`.

**C144 How long the scans of package network take** (proved).  Every request of the scans is a ReadProperty (`all_reads`), so that each adds at most 6 s (`reads_in_time`, from the induction of C141) and no decoder keeps it for ever; the number of requests follows from the scripts: four per device found, one or 1 + n for the object list, two per analogue and one per other point.  *For all prompt timed executions in which the scan goes on at once; the time of the Who-Is is C131.*  Theorems: `c144_discover`, `c144_devices`, `c144_objects`, `c144_points`, `c144_meanwhile`.

**C145 Options of WhoIs can be used again** (partial).  Model: `whois_calls`, a sequence of calls with one set of options, each leaving `whois_leaves`; frames and ranges are those of C44, C46. Spec: `wrote` (the edits alone), `stale`. Induction over the calls.  *REFUTED: WhoIs writes 65535 into NetworkNumber of the options when GlobalBroadcast is set; with GlobalBroadcast switched off again the next Who-Is still goes to all networks. Proved for all sequences: exactly which calls do, all others are as written.*  Theorems: `c145_as_written_refuted`, `c145_exact_partial`, `c145_as_written_partial`.

**C146 Discovery calls leave nothing behind** (partial).  Spec: `left_behind`, the callers of the calls of a timed run that return in a step other than the receive from errChan. `y_ends` gives the two ways of returning; counting by induction over the run against `unsent`; prompt runs with the invariant of C112; subscriptions from the invariants of C57 and C109 (`registered_iff`, `gone`).  *REFUTED: a WhoIs whose transmission fails only after Subscribe has returned comes back at whois.go:68 without receiving from errChan; the sending goroutine stays blocked for good. Proved for all runs: only a WhoIs that reports a failed transmission does so; none does if time passes only while nothing can go on; subscriptions are always taken back.*  Theorems: `c146_left_refuted`, `c146_only_unsent_partial`, `c146_in_time_partial`, `c146_unsubscribed_partial`, `c146_clean_partial`.

**C147 The multi command shows what the device has of what it asks for** (partial).  Model: ModelCmdMulti, the whole command from NewClient on. The reads are `read_at` (C76); the multiple read is unfolded for such an address, with `readmulti_ack` (C29) and `failing_ack` (C70); `client_own`: a client made without error has an IPv4 address of its own. The request has 42 or 47 octets, so that every standard maximum APDU length (at least 50) suffices.  *REFUTED: the command exits when the object list, which it does not use, cannot be read in one answer; one missing output hides what the device gave of the others; without a client it crashes. Proved: all that is answered is shown otherwise, with exactly these requests.*  Theorems: `c147_list_refuted`, `c147_missing_output_refuted`, `c147_no_client_refuted`, `c147_shows_partial`, `c147_small_partial`, `c147_silent_partial`.

**C148 A scan of the network, from the Who-Is to the last answer** (partial).  Spec: `full_scan`, a Who-Is that returns and then a script (C143) of its result. A goroutine whose Who-Is returns is free (`at_rest`, an invariant of the composed system; `t_ends` of C146), so C143 and C144 apply to the rest of the run; the Who-Is itself takes 2 to 10 s (C131, C132 applied to the run up to the step before it returns). `calls_le` bounds the number of requests of every prefix of a script. C125 and C133 give what is listed.  *REFUTED: the Who-Is need not return (C131), so that the scan does not come to anything; for device 0 DeviceObjects and GetDevicePoints ask for all devices. Proved: the bounds if announcements come one at a time, or if discovery does not get stuck while the Who-Is waits; what is listed, for all runs.*  Theorems: `c148_in_time_refuted`, `c148_discover_partial`, `c148_served_partial`, `c148_devices_partial`, `c148_objects_partial`, `c148_points_partial`, `c148_listed`, `c148_heard`, `c148_one_device_partial`, `c148_one_device_refuted`.

**C149 Scanning again and again does not make the process grow** (partial).  Model: ModelLoops, any number of ClientRun loops on one socket, one statement at a time; handlers are not part of it (C61, C88). Counting by induction over the run; what was handed on and what loops hold is a permutation of what came, an invariant (equality while there is one loop); `hears_exact`: a loop that has not ended can be brought to Receive by its own steps; a measure of at most 3 per loop goes down with every step after the socket is closed.  *REFUTED: every Whois, NetworkDiscover, DeviceDiscover, GetDevicePoints and DeviceObjects with the check starts one more receive loop that stays until the socket gives an error; with two, datagrams overtake one another. Proved for all runs: the exact number of loops, every datagram handed on once, in order with one loop; exactly when the client hears; after the socket is closed all loops end.*  Theorems: `c149_bounded_refuted`, `c149_order_refuted`, `c149_grows_exact_partial`, `c149_once_partial`, `c149_in_order_partial`, `c149_deaf_exact`, `c149_closed_partial`.

**C150 Only an answer to the request counts as its answer** (partial).  Spec: `spec_segment` (20.1.5), `alike` environments. All acknowledgements leave the decoder on the octet after the service (`check_head`, sweep over the 32 first octets); the octet before does not matter (`read_before`, `multi_before`), so that the four retry loops agree by induction. A segment leaves it on the window size, which has to read as context tag 0. `about`: decoding follows the reference whatever comes after the opening tag.  *REFUTED: neither service, segmentation, object nor property of an acknowledgement are compared with the request; the point reads return the value of another point without an error, and the first segment of a long answer can read as a value. Proved for all requests and answers: any conforming value about anything is taken, the head never matters to any of the four calls; segments with window size outside 8..15 are refused; ReadProperty returns the object, property and index of the answer.*  Theorems: `c150_other_object_refuted`, `c150_point_refuted`, `c150_segment_refuted`, `c150_any_answer_exact_partial`, `c150_head_ignored_partial`, `c150_segments_partial`, `c150_says_which_partial`.

**C151 Datagrams that are not frames for this client are ignored** (partial).  Spec: `is_frame`, `elsewhere`, `does` (the effects, without the header fields of a network message). The two decodes go in lockstep: after the version the two decoders agree (`npdu_version`), after the NPDU they differ at most in the octet before, which the APDU decoder does not see (`apdu_before`, `recv_frame` of C36). `cut`: `read_ack_body` of C26 takes any last octet for the closing tag.  *REFUTED: type, length and version are read and never looked at, and so is the destination. Proved for all datagrams: of the first five octets only the function makes a difference, destination, hop count and priority make none; other functions have no effect; an answer cut one octet into a further value is taken for the answer of the values before.*  Theorems: `c151_type_refuted`, `c151_length_refuted`, `c151_version_refuted`, `c151_destination_refuted`, `c151_fields_ignored_partial`, `c151_destination_ignored_partial`, `c151_functions_partial`, `c151_cut_partial`.

**C152 Bit strings can be looked at** (partial).  Spec: `last_set`, `longest`, `octet_of`, a program `set_bits`. Induction over the program with C59; octets from bits by `land_bit`. `look`: GetValue crashes iff there are more bits than octets, and fewer than 15 octets; `loop_size`: the decoding loop changes neither, for any contents.  *REFUTED: a received bit string of no octets with unused bits has up to 255 bits and crashes GetValue, an empty one is a nil pointer; SetBit, Bit and Byte between the size and 15 octets crash. Proved: the laws for all strings made within their size and for all conforming strings received, and exactly which received strings and which indices crash.*  Theorems: `c152_look_refuted`, `c152_made_partial`, `c152_outside_exact_partial`, `c152_received_partial`, `c152_look_exact_partial`.

**C153 The home directory is found and remembered** (partial).  Model: ModelHome; the environment and what the commands print are parameters, TrimSpace for ASCII, filepath.Clean of Unix element by element, calls sequential. Spec: `passwd` lines, `go` (pathname resolution), `padded` output. Trimming cannot reach beyond the first and the last colon (`trim_colons`); `clean_walk`: the stack of Clean is the reverse of where one is, by induction over the elements; `clean_here` the same for a relative home directory, with the double dots below the names.  *REFUTED: without the program getent the shell is not asked (the error is compared with the wrong value), and an empty directory field gives an empty path without an error. Proved for all surroundings: where the directory is taken from on every system; it is remembered over all sequences of calls; Expand for all paths.*  Theorems: `c153_shell_refuted`, `c153_empty_refuted`, `c153_variable_partial`, `c153_passwd_partial`, `c153_command_partial`, `c153_windows_partial`, `c153_remembered_partial`, `c153_expand_partial`, `c153_relative_partial`, `c153_others_partial`.

**C154 Names of properties and services stay what they are, whatever callers do with the maps they are given** (partial).  Model: ModelTables; a program is a sequence of calls of Keys and ListAll and of edits (put, delete) of what they gave, one after the other (no data races). Spec: `done_to` (the last edit of an entry), `own_name` (the name at its place in the list of the standard). Invariants of `trun`: the property table is unchanged; the keys of the service table are distinct; an entry is what the last edit made it (`run_get`).  *REFUTED: ListAll hands out the table of the package itself, so that one deletion takes a service away from every caller; a service with Supported set is another key of the map and has no name. Proved: the property names stay after all programs; the services stay as long as nobody edits the result of ListAll; exactly what GetString and GetType say after any program.*  Theorems: `c154_shared_refuted`, `c154_marked_refuted`, `c154_properties_partial`, `c154_looking_partial`, `c154_strings_exact_partial`, `c154_types_exact_partial`.

**C155 Objects of a device are counted once, listed once and told apart in print** (proved).  Model: ModelTables. Spec: `obj_at`, `wf_map` of C63, `last_put`, `same_map` (the same nested map in another order). The identifiers in iteration order are the witness (`all_ids`); induction over both levels. Printed identifiers: the number ends at the first blank (`cut_at`), type names are distinct and differ from those of unknown types.  *Type and instance not negative (they are unsigned in the code).*  Theorems: `c155_counted_and_listed`, `c155_put`, `c155_texts_apart`.

**C156 The printed text of a reading tells what was read** (partial).  Model: ModelReading; what fmt makes of floats, octet and bit strings, dates, times and lists is a parameter (all functions). Spec: `same_reading`, `one_line`, `same_kind`. The text is cut at the first bracket, at the first closing bracket and at the line feed (`cut_at`); a property line starts with a blank, the end of an object with a line feed, an object with a letter; induction over both lists.  *REFUTED: all properties outside the thirteen with a name print as Unknown without their number, and a text with a line feed prints as properties that were not read. Proved: readings whose values take one line each print alike exactly if they differ at most in the numbers of unnamed properties; simple values of a kind are told apart.*  Theorems: `c156_unnamed_refuted`, `c156_forged_refuted`, `c156_named_partial`, `c156_readings_exact_partial`, `c156_values_partial`.

**C157 The list of the known properties is complete and in columns** (proved).  Model: ModelReading (`PrintAllProperties`; strings.Repeat panics for negative counts). Spec: `two_columns`, `numeral`, the table of the standard. The width is at least every name (`longest_from`), so no count is negative.  *The lines are modelled as a list, without what the terminal makes of them. The read command declares the flag too, but never looks at it.*  Theorems: `c157_listing`.

## Findings

Behaviour of the code established by the theorems above that a user would call a
defect.

Codec
* Identifiers outside 10+22 bits are masked and address another object (C04).
* Signed integers are written with the unsigned length rule: 128..255 and
  32768..65535 come back negative (C06); doubles are tagged with length 4 (C07).
* Dates are read with base year 1990 instead of 1900, three-octet negative
  integers without sign extension (C08); unsigned values longer than four octets
  are read as 0 and their contents left in the stream (C09).
* Dates and times cut short are filled with zeros (C11); zero-length character
  strings and times of 1..3 octets panic (C12).
* `isOpening` is also true for closing tags (both masks contain 6); visible only
  on malformed input.

Layers
* NPDU type 0x80 writes a vendor id that the reader does not expect; a priority
  byte with bit 5 or 3 crashes the writer without address (C15).
* Non-standard maximum APDU sizes are rounded up; above 1476 they are advertised
  as 50 (C18).
* I-Am-Router-To-Network with one network is an error, all networks after the
  second are dropped (C21).
* The code of a standard Error PDU is almost always reported as 145 (C22).

Services
* ReadProperty acks are closed with the wrong tag (C26); a ReadPropertyMultiple
  ack cut inside a value list hangs the decoder (C30).
* A context-tagged value in a ReadPropertyMultiple ack appends the unfinished
  object to the result once per value; a property error fails the whole call
  (C70); a property without value is dropped.
* The ack encoder of ReadPropertyMultiple writes the raw value twice, fails on
  strings and panics on nil (model `enc_ReadMultiplePropertyAck`).
* WritePropertyMultiple tags the priority with 2 instead of 3 (C32).
* Invalid references are sent as header-only requests or under the identity of
  another object (C33); a non-uint32 present value for binary outputs and values
  panics (C34).

Client
* Short forwarded frames and some I-Am payloads crash the receiver (C35).
* Confirmed requests of others are delivered to the transaction with that id
  (C36) and count as acknowledgement of a write (C41).
* Reject, Abort and SegmentAck are dropped, the call times out (C37).
* GetValue crashes on a received bit string that has unused bits and no octets, a bit
  string without contents is a nil pointer (C152).
* An acknowledgement is not compared with the request: not the service, not the
  segmentation flag, not the object and property; PointReadFloat32 and the others give
  the value of whatever point the answer is about (C150).
* Type and length of a frame, the version of the network layer and the destination are
  not looked at: an I-Am for another network counts, a damaged frame is taken, an answer
  cut within a list is read as a shorter list (C151).
* The origin address of a Forwarded-NPDU is parsed as NPDU; frames forwarded for
  10.0.0.x go to transaction 186 (C38).
* Station addresses longer than one octet are misframed; WriteMultiProperty to a
  discovered routed device becomes a remote broadcast (C43).
* Local Who-Is requests are broadcast with the unicast function (C44); limits are
  truncated to 32 bits (C46).
* Replies larger than the receive buffer less the header are cut (C86); a datagram
  from an IPv6 address crashes the receive loop (C87), the first receive error ends
  it (C88).
* NewClient panics on an IPv6 address with a mask (C134); an IPv4 address in IPv6
  notation is given the broadcast address 0.0.0.0 (C136).  ValidIP accepts /128 after
  an IPv4 address (C137).
* The rest of a network-layer message is handled as an APDU (C89); router discovery
  returns at most two networks per answer (C90).
* Objects divides by zero below 20 octets of APDU (C48), names are refused below
  61 octets and missing for types above 128 (C49). Five objects of vendor types in a
  row give a ReadPropertyMultiple request that names no object (C49).  An answer with
  too few results or about too many objects crashes Objects; beside an object of a
  vendor type a surplus answer makes up an analogue input 0 (C48).
* WhoIs writes 65535 into the NetworkNumber of its caller's options (C145).
* The command `multi` exits when the object list, which it does not use, does not come in
  one answer, shows nothing if one output is missing, and crashes without a client (C147).
* Without getent the home directory is not asked of the shell, as meant; an empty field
  of the password file gives an empty path and no error (C153).
* `DeviceObjects` and `GetDevicePoints` of device 0 broadcast a Who-Is for all devices, and
  wait for their answers (C148).
* A WhoIs whose transmission fails late leaves its sending goroutine blocked for good (C146).

Concurrency
* Every Whois, NetworkDiscover, DeviceDiscover, GetDevicePoints and DeviceObjects
  with the check starts one more receive loop and none is ever ended while the client
  is open: a program that polls grows by one goroutine and one buffer with every scan,
  and datagrams overtake one another (C149).
* A duplicate or late reply panics the process with "send on closed channel"
  (C54); a pending Send reaches the next transaction that reuses the pooled state
  (C53).
* Publish holds the manager's mutex while it waits for a subscriber: two
  publications in a row block everything for ever (C56).  Subscribe loses the one
  value queued when its timeout fires (C55).
* WhoIs loses answers that come before it has registered itself or just before its
  timeout (C110), hangs for ever when two come around the timeout (C111), and may
  return an empty list without error although nothing was sent (C112).
* Two data races (C139): `s.data` of a recycled state object, between tsm.ID and the
  handler of a late answer; `err` of every discovery call, between the call and the
  goroutine it starts.
* A write whose answer is lost is carried out a second time and may undo what another
  goroutine wrote, and was told is written, in between (C123).
* An object put at the front of the object list while `Objects` reads it makes the call
  succeed without another object that was on the list all the time (C124).
* On a shared client Objects may take a late answer to another request for the length of
  the list and return an empty list (C140), and a discovery may list a device with the
  name of another one (C143).
* A call returns the value another device sent for another call (C93), a device
  that answers twice crashes the process (C97), anybody can answer (C100).

Helpers and package network
* A point whose unit cannot be read is reported in square meters, unit numbers are cut
  to 16 bits (C115); the text of an error names a code the device did not send (C114).
* C58 unknown object types come back as analog inputs, nil target panics; C63
  priority arrays with reals panic; C65 port ignored and instance 0; C66 aliasing
  and details read from the receiver; C67 one-element lists empty, unreadable
  element panics; C68 subnet and port exchanged; C72 invalid IP becomes 0.0.0.0;
  C73 wrong index; C74 nil Store; C75 wrong kind panics; C76 wrong types silently
  0; C78 analogue write to binary points panics; C79 priorities 17..255 sent; C81
  announced sizes zeroed; C82 no error, services never read; C84 scan; C85 wrong
  thing closed; C92 the discovery command saves before the last results are merged.
* The write command writes 0 for a text it cannot convert (C102), replaces enumerated
  by unsigned values (C103) and takes a misspelt property name for property 0 (C104);
  the read and whois commands crash at once (C105); the list flag of the read command has
  no effect (C157 is about the commands that look at it).
* Answers to ReadPropertyMultiple written by the library carry every value untagged and
  twice (C116); the day patterns of dates are mixed up (C117).
* ListAll of package services hands out its own table: a caller who deletes from it takes
  the service away from all others; a service marked as supported has no name (C154).
* The text of a reading does not tell properties without name apart, and a name with a line
  feed in it imitates further properties (C156).
* Devices behind a router found by WhoIs are not reached unless their station address
  is one octet (C107).

## Trusted base

* The kernel of Coq 8.16.1 (the proofs use `lia`, `vm_compute` and the standard
  library; `vm_compute` is part of the kernel).
* Axioms: `Print Assumptions` under every property theorem answers "Closed under
  the global context": no axiom is used.  The only axioms in the loaded context
  are the seven of the standard library's `Coq.ssr.ssrunder` (`Under_rel.*`,
  parameters of a module type that the library loads with the `lia`
  preprocessing); no theorem depends on them.
* The transcription of the Go code, and the behaviour of the Go library described
  in the comments: `bytes.Buffer`, `encoding/binary`, `io.ReadFull`, `net.ParseIP`
  (IPv4 only), `net.ParseCIDR`, `regexp` (one pattern), `fmt.Sprintf("%d")`,
  `golang.org/x/text` UTF-16, `sync.Pool`, `sync.Mutex`, channels and `select`,
  maps (any iteration order), go-cache (a map), conversion uint32 to float32.

### Modelled

All of package encoding; tsm, utsm; the client (`device.go`, `readprop.go`,
`writeprop.go`, `readmulti.go`, `writemulti.go`, `whois.go`, `whoisrouter.go`,
`whatnetwork.go`, `iam.go`, `objectlist.go`); `datalink/udp.go` except the socket
itself (its results are arbitrary events); btypes `address.go`, `bitstring.go`, `device.go`, `object.go`,
`object_map.go`, `priority/`, `services/` and the record types; helpers `ipbytes`,
`validation`, `data`, `store`; the generated String methods (C113); package network; the scan and the
worker pipeline of `cmd/cmd/discover.go`.

### Not modelled

* The socket, the operating system, garbage collection, memory exhaustion.  Timeouts
  may fire at any moment, except in the timed model (C128-C133).
* Logging and printing (except C155-C157), configuration of the command line program (cobra, viper),
  `helpers/print`, `helpers/nils`; `filepath.Join` of Windows (C153).
* `datalink/mstp.go` (entirely commented out in the repository).
* Package `cmd/cmd` does not compile as a whole: `readprop.go` calls
  `NetworkClose()` without its argument (`network/base.go:40`).  The functions of
  that package that are modelled (C84, C92, C102-C105) are modelled as written.
* The JSON text format, the texts of error messages other than those for Error PDUs
  (C114).  The texts of IP addresses are read as net/ip.go of Go 1.17 reads them
  (C134-C138); the list of addresses of a network interface is a parameter.
* Weak memory: accesses are sequentially consistent, each variable access is an atomic
  step.  The races this hides are exactly those of C139.
* In C35-C49 the client calls are sequential functions of an environment;
  `ModelSystem` composes them with the receive path and tsm (C93-C100).  The
  composition covers the four request calls; encoding and decoding take no time
  there and Publish returns at once.  `ModelScan` composes the discovery calls with the
  receive path and utsm (C109-C112); there the transaction manager answers at once.
  `ModelWhole` runs both side by side without these assumptions (C125-C127), and
  `ModelTime` adds the durations of the waits (C128-C133): steps take no time there,
  time passes between them.  `ModelScript` lets a goroutine of it perform Objects (C140,
  C141), `ModelNetScript` the scans of package network (C143, C144), with their Who-Is (C148).  Only in ModelTime do time-outs have a length; elsewhere
  they fire at any moment.

## Testing the theorems

`seeded/LOG.jsonl` lists edits of the model, one per line, that imitate realistic
bugs, the claim each breaks, and the theorems that no longer proved.  The edits were
made in a copy outside this directory; every lemma that failed was replaced by an
admitted one there, and a property theorem counts as failed if its assumptions then
include an admitted lemma.

A theorem listed as failed is one whose proof script no longer goes through.  That is
weaker than the statement being false: an edit can break a proof and leave the statement
true.  The edits known to be of that kind carry the note "harmless edit"; the others were
chosen to make a claim false, but this was not proved for each of them.  For the random
edits the log names only the first lemma that failed.
