{
 "claims": [
  {
   "property": "C01",
   "status": "proved",
   "theorems": [
    "c01_tag_header_round_trip",
    "c01_opening_closing_tags"
   ],
   "note": "All tag numbers, classes, lengths and suffixes; octets equal the standard's."
  },
  {
   "property": "C02",
   "status": "proved",
   "theorems": [
    "c02_unsigned_minimal_round_trip",
    "c02_tagged_round_trip"
   ],
   "note": "All 2^32 values, any suffix; also behind a context tag of any number."
  },
  {
   "property": "C03",
   "status": "proved",
   "theorems": [
    "c03_object_id_round_trip_no_alias"
   ],
   "note": ""
  },
  {
   "property": "C04",
   "status": "partial",
   "theorems": [
    "c04_out_of_range_object_id_refuted",
    "c04_alias_exact_partial"
   ],
   "note": "REFUTED: the encoder masks type and instance (encoder.go:119-123), so e.g. device 4194309 is addressed as device 5. The exact alias is proved for every out-of-range identifier."
  },
  {
   "property": "C05",
   "status": "proved",
   "theorems": [
    "c05_app_value_round_trip"
   ],
   "note": ""
  },
  {
   "property": "C06",
   "status": "partial",
   "theorems": [
    "c06_int_round_trip_refuted",
    "c06_int_round_trip_exact_partial"
   ],
   "note": "REFUTED: int32 values are written with the unsigned length; the round trip holds exactly outside 128..255 and 32768..65535 (proved as an equivalence)."
  },
  {
   "property": "C07",
   "status": "partial",
   "theorems": [
    "c07_written_standard_refuted",
    "c07_written_standard_exact_partial"
   ],
   "note": "REFUTED: doubles are tagged with length 4, signed integers use unsigned lengths. Exact set of conforming values proved."
  },
  {
   "property": "C08",
   "status": "partial",
   "theorems": [
    "c08_conforming_read_refuted",
    "c08_conforming_read_partial",
    "c08_dates_exact_partial",
    "c08_three_octet_negatives_exact_partial",
    "c10_bit_positions"
   ],
   "note": "REFUTED for dates (year base 1990 instead of 1900) and 3-octet negative integers (no sign extension). Proved for all other conforming values, and what the excluded ones are read as."
  },
  {
   "property": "C09",
   "status": "partial",
   "theorems": [
    "c09_unsupported_refused_refuted",
    "c09_long_integers_refuted",
    "c09_unsupported_refused_partial"
   ],
   "note": "REFUTED: integers and enumerations longer than 4 octets are read as 0 and their contents left in the stream, bit strings over 120 bits as empty, unspecified years as 2245, all without error. Proved part: other character sets and unknown tags are refused."
  },
  {
   "property": "C10",
   "status": "proved",
   "theorems": [
    "c10_bit_positions"
   ],
   "note": ""
  },
  {
   "property": "C11",
   "status": "partial",
   "theorems": [
    "c11_truncation_reported_refuted",
    "c11_truncation_exact_partial"
   ],
   "note": "REFUTED: short dates and times are zero-filled without error, strings cut inside an extended header panic. Proved: exactly which proper prefixes of which conforming encodings are reported, and what happens on the others."
  },
  {
   "property": "C12",
   "status": "partial",
   "theorems": [
    "c12_value_never_crashes_refuted",
    "c12_value_crash_exact_partial",
    "c12_value_terminates"
   ],
   "note": "REFUTED: zero-length character strings and 1..3-octet times panic. The set of crashing inputs is characterised exactly for all byte strings."
  },
  {
   "property": "C59",
   "status": "proved",
   "theorems": [
    "c59_bit_get_set"
   ],
   "note": ""
  },
  {
   "property": "C13",
   "status": "proved",
   "theorems": [
    "c13_bvlc_round_trip",
    "c13_frame_length_field"
   ],
   "note": "All functions and payloads up to 65531 octets; the frame is that of client.Send."
  },
  {
   "property": "C14",
   "status": "proved",
   "theorems": [
    "c14_npdu_round_trip"
   ],
   "note": "Message types 1 and 19 (whose body the NPDU decoder consumes, see C21) and 0x80 (see C15) excluded."
  },
  {
   "property": "C15",
   "status": "partial",
   "theorems": [
    "c15_message_type_and_priority_refuted",
    "c15_type_80_exact_partial",
    "c15_crash_exact_partial"
   ],
   "note": "REFUTED: type 0x80 writes a vendor id that is not read back; priority bytes with bit 5/3 crash the writer when there is no destination/source (exact condition proved)."
  },
  {
   "property": "C16",
   "status": "proved",
   "theorems": [
    "c16_confirmed_header_round_trip",
    "c16_unconfirmed_header_round_trip",
    "c16_complex_ack_header_round_trip"
   ],
   "note": ""
  },
  {
   "property": "C17",
   "status": "proved",
   "theorems": [
    "c17_advertised_sizes"
   ],
   "note": ""
  },
  {
   "property": "C18",
   "status": "partial",
   "theorems": [
    "c18_never_advertises_more_refuted",
    "c18_never_more_iff_standard_partial"
   ],
   "note": "REFUTED: non-standard sizes are rounded up, sizes above 1476 advertised as 50. Exact condition proved."
  },
  {
   "property": "C19",
   "status": "proved",
   "theorems": [
    "c19_iam_round_trip"
   ],
   "note": ""
  },
  {
   "property": "C20",
   "status": "proved",
   "theorems": [
    "c20_whois_round_trip"
   ],
   "note": ""
  },
  {
   "property": "C21",
   "status": "partial",
   "theorems": [
    "c21_router_networks_refuted",
    "c21_router_networks_exact_partial"
   ],
   "note": "REFUTED: a list of one network is an error, all after the second are dropped. Exact result proved for every list."
  },
  {
   "property": "C22",
   "status": "partial",
   "theorems": [
    "c22_error_class_and_code_refuted",
    "c22_standard_error_exact_partial",
    "c22_bracketed_error_partial"
   ],
   "note": "REFUTED: the code of a standard Error-PDU is reported as 145 unless class mod 8 = 5. Exact result proved; the bracketed form is read correctly."
  },
  {
   "property": "C23",
   "status": "proved",
   "theorems": [
    "c23_read_request"
   ],
   "note": "Exact octets, and decoded back through dec_APDU and dec_ReadProperty."
  },
  {
   "property": "C24",
   "status": "proved",
   "theorems": [
    "c24_read_ack_decoding"
   ],
   "note": "All lists of the values C08/C10 read faithfully (dates and 3-octet negatives excluded there)."
  },
  {
   "property": "C25",
   "status": "partial",
   "theorems": [
    "c25_ack_round_trip_refuted",
    "c25_ack_round_trip_exact_partial"
   ],
   "note": "REFUTED only for the integers of C06; equivalence proved for every writable value."
  },
  {
   "property": "C26",
   "status": "partial",
   "theorems": [
    "c26_ack_conforms_refuted"
   ],
   "note": "REFUTED for every value: opened with tag 3, closed with tag 4 (readprop.go:68-73); for standard values that is the only differing octet."
  },
  {
   "property": "C27",
   "status": "proved",
   "theorems": [
    "c27_read_decoding_terminates"
   ],
   "note": "Every byte string, as request and as ack."
  },
  {
   "property": "C28",
   "status": "proved",
   "theorems": [
    "c28_readmulti_request"
   ],
   "note": ""
  },
  {
   "property": "C29",
   "status": "proved",
   "theorems": [
    "c29_readmulti_ack_decoding"
   ],
   "note": "Every object has at least one result, as the standard demands; results are value lists (error results: see DESIGN)."
  },
  {
   "property": "C30",
   "status": "partial",
   "theorems": [
    "c30_readmulti_ack_terminates_refuted",
    "c30_cut_ack_hangs_partial",
    "c30_hangs_or_ends_partial"
   ],
   "note": "REFUTED: any ack cut after a value of a value list keeps the decoder looping for every amount of fuel. Proved for every input: within one round per octet the decoder is done, or it never is."
  },
  {
   "property": "C31",
   "status": "partial",
   "theorems": [
    "c31_write_request_refuted",
    "c31_write_request_exact_partial"
   ],
   "note": "REFUTED for the values of C07 and for binary points (C34); equivalence proved."
  },
  {
   "property": "C32",
   "status": "partial",
   "theorems": [
    "c32_writemulti_request_refuted",
    "c32_writemulti_octets_exact_partial",
    "c32_writemulti_request_partial"
   ],
   "note": "REFUTED: priority has context tag 2 instead of 3, binary present values are not enumerated. Exact octets proved for all inputs; conforming without priorities."
  },
  {
   "property": "C33",
   "status": "partial",
   "theorems": [
    "c33_invalid_refused_refuted",
    "c33_invalid_read_exact_partial",
    "c33_invalid_write_exact_partial",
    "c33_multiple_services_alias_partial"
   ],
   "note": "REFUTED for every invalid reference: a header-only request is sent (single services) or another object addressed (multiple services)."
  },
  {
   "property": "C34",
   "status": "partial",
   "theorems": [
    "c34_unwritable_refused_refuted",
    "c34_binary_point_crash_exact_partial",
    "c34_unwritable_refused_partial",
    "c34_writemulti_refused_partial"
   ],
   "note": "REFUTED for present values of BO/BV: anything but uint32/null panics. Refusal proved everywhere else."
  },
  {
   "property": "C35",
   "status": "partial",
   "theorems": [
    "c35_no_crash_refuted",
    "c35_crash_exact_partial"
   ],
   "note": "REFUTED: short Forwarded-NPDU frames and I-Am payloads that panic in the value decoder. Proved for all byte strings: the receiver crashes exactly on these (necessary and sufficient condition, stated on the octets alone)."
  },
  {
   "property": "C36",
   "status": "partial",
   "theorems": [
    "c36_dispatch_refuted",
    "c36_only_what_the_frame_says_partial",
    "c36_acks_partial",
    "c36_errors_partial",
    "c36_iam_partial",
    "c36_requests_delivered_partial",
    "c36_other_services_ignored_partial",
    "c36_deliveries_exact_partial",
    "c36_published_exact_partial"
   ],
   "note": "REFUTED: confirmed requests from others are delivered to the transaction with the same invoke id. Soundness proved for all byte strings, exact effect for every well-formed frame type; for all byte strings the exact condition under which something is handed to a transaction or published as an I-Am, stated on the octets alone."
  },
  {
   "property": "C37",
   "status": "partial",
   "theorems": [
    "c37_final_answers_refuted",
    "c37_dropped_exact_partial"
   ],
   "note": "REFUTED: every Reject, Abort and SegmentAck is dropped."
  },
  {
   "property": "C38",
   "status": "partial",
   "theorems": [
    "c38_forwarded_refuted",
    "c38_origin_not_skipped_exact_partial",
    "c38_net10_misdelivered_partial"
   ],
   "note": "REFUTED: the 6-octet origin is parsed as NPDU; frames forwarded for 10.0.0.x:47808 go to transaction 186."
  },
  {
   "property": "C39",
   "status": "proved",
   "theorems": [
    "c39_read_end_to_end"
   ],
   "note": "request octets, receive path and decoder composed, any list of supported values"
  },
  {
   "property": "C40",
   "status": "proved",
   "theorems": [
    "c40_read_tries",
    "c40_write_tries",
    "c40_readmulti_tries",
    "c40_writemulti_tries"
   ],
   "note": "any environment; a call that crashes does so before its first transmission"
  },
  {
   "property": "C41",
   "status": "partial",
   "theorems": [
    "c41_write_acknowledged_refuted",
    "c41_write_success_partial",
    "c41_write_exact_partial",
    "c41_writemulti_exact_partial"
   ],
   "note": "REFUTED: a confirmed request with the same invoke id counts as acknowledgement; proved that only that or an ack does, and for both write calls the exact outcome and number of attempts for every history of answers."
  },
  {
   "property": "C42",
   "status": "proved",
   "theorems": [
    "c42_readmulti_limit",
    "c42_writemulti_limit",
    "c42_zero_refused"
   ],
   "note": "packets below 4 GiB (the length is compared as uint32)"
  },
  {
   "property": "C43",
   "status": "partial",
   "theorems": [
    "c43_routed_frames_refuted",
    "c43_read_exact_partial",
    "c43_write_exact_partial",
    "c43_readmulti_exact_partial",
    "c43_writemulti_exact_partial",
    "c43_discovered_length_partial"
   ],
   "note": "REFUTED for MAC addresses of 2 or more octets and for WriteMultiProperty to discovered devices; exact frames proved for all MAC lengths."
  },
  {
   "property": "C44",
   "status": "partial",
   "theorems": [
    "c44_broadcast_function_refuted",
    "c44_whois_function_exact_partial",
    "c44_send_function_exact_partial"
   ],
   "note": "REFUTED: local Who-Is goes to the broadcast IP with the unicast function; exact choice proved."
  },
  {
   "property": "C45",
   "status": "proved",
   "theorems": [
    "c45_whois_result",
    "c45_whois_order"
   ],
   "note": "for every sequence of publications"
  },
  {
   "property": "C46",
   "status": "partial",
   "theorems": [
    "c46_whois_covers_refuted",
    "c46_whois_covers_partial",
    "c46_whois_exact_partial"
   ],
   "note": "REFUTED for bounds of 2^32 and more (truncated); proved below 2^32, and the exact condition for all bounds."
  },
  {
   "property": "C47",
   "status": "proved",
   "theorems": [
    "c47_chunks"
   ],
   "note": "any list length below 2^32; groups fit from 20 octets (local) or 40 octets (routed)"
  },
  {
   "property": "C48",
   "status": "partial",
   "theorems": [
    "c48_never_crashes_refuted",
    "c48_small_apdu_crash_exact_partial",
    "c48_objects_return_partial",
    "c48_crash_causes_partial",
    "c48_names_crash_exact_partial"
   ],
   "note": "REFUTED: advertised maximum below 20 octets divides by zero; fewer results than asked for index out of range. Proved to return for devices reached directly or behind routers with one-octet addresses, with at least 20 octets, that answer (or not) with one result per property or errors. For all devices and answers: the complete list of causes of a crash, and exactly which answers to the request for names crash."
  },
  {
   "property": "C49",
   "status": "partial",
   "theorems": [
    "c49_objects_refuted",
    "c49_objects_exact_partial"
   ],
   "note": "REFUTED for advertised maximum below 61 octets and types above 128; exact result and frames proved for every list and iteration order of the object map, for devices reached directly or behind routers with one-octet addresses: names exactly for standard types, and failure exactly at the first group whose request exceeds the maximum."
  },
  {
   "property": "C70",
   "status": "partial",
   "theorems": [
    "c70_property_errors_refuted",
    "c70_property_error_fails_all_exact_partial"
   ],
   "note": "REFUTED for every such answer: the first property error becomes the error of the whole call."
  },
  {
   "property": "C50",
   "status": "proved",
   "theorems": [
    "c50_invoke_ids_unique"
   ],
   "note": "all interleavings of any number of goroutines over the small-step model of tsm; misuse by callers (Put of foreign ids) included"
  },
  {
   "property": "C51",
   "status": "proved",
   "theorems": [
    "c51_conservation",
    "c51_nothing_lost",
    "c51_id_succeeds_below_limit"
   ],
   "note": "conservation in every reachable state, exact when nobody is inside a call, and ID succeeds below the limit"
  },
  {
   "property": "C52",
   "status": "proved",
   "theorems": [
    "c52_put_completes",
    "c52_second_put_refused",
    "c52_slot_goes_back"
   ],
   "note": "Put runs to its end by its own steps; a Put of an id not in progress changes nothing"
  },
  {
   "property": "C53",
   "status": "partial",
   "theorems": [
    "c53_own_transaction_refuted",
    "c53_own_transaction_partial",
    "c53_no_reuse_partial"
   ],
   "note": "REFUTED: the pooled state object of a released transaction is reused and a Send still pending on it reaches the next transaction. Proved: only through such a Put and reuse."
  },
  {
   "property": "C54",
   "status": "partial",
   "theorems": [
    "c54_duplicate_reply_refuted",
    "c54_late_reply_refuted",
    "c54_overtaken_never_returns",
    "c54_crash_only_overtaken_partial",
    "c54_reply_after_put_partial"
   ],
   "note": "REFUTED: a Send overtaken by the Put of its transaction panics (send on closed channel). Proved: this is the only way to crash and replies after Put are refused."
  },
  {
   "property": "C71",
   "status": "proved",
   "theorems": [
    "c71_reply_delivered"
   ],
   "note": ""
  },
  {
   "property": "C55",
   "status": "proved",
   "theorems": [
    "c55_received_exact",
    "c55_returned_prefix"
   ],
   "note": "received ++ queued = published in range, in order, for every interleaving; while a Publish is under way its own value may still be on the way. Subscribe returns a prefix that misses at most one (queued at the timeout)."
  },
  {
   "property": "C56",
   "status": "partial",
   "theorems": [
    "c56_no_deadlock_refuted",
    "c56_timeout_deadlock_refuted",
    "c56_embrace_forever",
    "c56_only_embrace_partial",
    "c56_publish_completes_partial",
    "c56_silent_exact_partial",
    "c56_returns_partial"
   ],
   "note": "REFUTED: two publications before the subscriber is back at its select block the whole manager for ever. Proved: no other deadlock exists, a Publish that finds room returns, the states from which nothing ever happens again are exactly those in which a publisher has still to serve a subscriber with a full channel that takes nothing any more, and from all others every call in progress can return."
  },
  {
   "property": "C57",
   "status": "proved",
   "theorems": [
    "c57_remove_exact",
    "c57_remove_list",
    "c57_remove_absent",
    "c57_registered_iff"
   ],
   "note": ""
  },
  {
   "property": "C58",
   "status": "partial",
   "theorems": [
    "c58_round_trip_refuted",
    "c58_nil_target_refuted",
    "c58_known_types_partial",
    "c58_round_trip_exact_partial"
   ],
   "note": "REFUTED: objects of types without a JSON name come back as analog inputs and a nil target map panics. Proved: maps of named types come back for every member order; exact description of what moves otherwise. The JSON text layer is taken as the identity."
  },
  {
   "property": "C60",
   "status": "proved",
   "theorems": [
    "c60_read_goes_there",
    "c60_write_goes_there"
   ],
   "note": "created device -> datagram destination and NPDU of every read and write; port 0 means 47808, network 0 the local one"
  },
  {
   "property": "C61",
   "status": "proved",
   "theorems": [
    "c61_valid_port"
   ],
   "note": "all integers; the regular expression is modelled as such"
  },
  {
   "property": "C62",
   "status": "proved",
   "theorems": [
    "c62_highest_first",
    "c62_highest_none"
   ],
   "note": ""
  },
  {
   "property": "C63",
   "status": "partial",
   "theorems": [
    "c63_priority_array_refuted",
    "c63_unsigned_arrays_partial",
    "c63_priority_exact_partial"
   ],
   "note": "REFUTED: a Real in the array panics (both branches assert uint32). Proved: arrays of nulls and unsigned values come back rounded to the nearest single; every other array of 16 values crashes the caller."
  },
  {
   "property": "C64",
   "status": "proved",
   "theorems": [
    "c64_known_service",
    "c64_unknown_service"
   ],
   "note": "against the bit positions of the standard, any iteration order of the map"
  },
  {
   "property": "C65",
   "status": "partial",
   "theorems": [
    "c65_identity_refuted",
    "c65_opened_device_exact_partial"
   ],
   "note": "REFUTED: the port is never passed on (47808 always) and the object identifier has instance 0. Proved: everything else is kept, the device is stored and found."
  },
  {
   "property": "C66",
   "status": "partial",
   "theorems": [
    "c66_distinct_devices_refuted",
    "c66_discover_exact_partial"
   ],
   "note": "REFUTED: the receiver pointer is appended again and again. Proved: exactly n equal entries with the data of the last device."
  },
  {
   "property": "C67",
   "status": "partial",
   "theorems": [
    "c67_one_object_refuted",
    "c67_missing_element_refuted",
    "c67_objects_exact_partial",
    "c67_one_by_one_partial"
   ],
   "note": "REFUTED: a one-element list is returned empty; an unreadable element panics. Proved: all other lists, of any length, whole or read one by one."
  },
  {
   "property": "C68",
   "status": "partial",
   "theorems": [
    "c68_client_from_ip_refuted",
    "c68_client_from_ip_exact_partial",
    "c68_client_from_interface_partial"
   ],
   "note": "REFUTED: subnet and port are exchanged, so with any port above 32 no link is made. Proved: exact behaviour, and correctness when opened by interface in CIDR notation."
  },
  {
   "property": "C69",
   "status": "proved",
   "theorems": [
    "c69_subnet_broadcast",
    "c69_port_in_use"
   ],
   "note": "bit by bit, for all addresses and mask lengths"
  },
  {
   "property": "C72",
   "status": "partial",
   "theorems": [
    "c72_invalid_ip_refuted",
    "c72_invalid_ip_exact_partial",
    "c72_valid_ip_partial"
   ],
   "note": "REFUTED: any text without IPv4 meaning, IPv6 addresses included, is accepted and 0.0.0.0 contacted. Proved: this happens for exactly these texts; dotted and IPv4-mapped texts give their address."
  },
  {
   "property": "C73",
   "status": "partial",
   "theorems": [
    "c73_index_refuted",
    "c73_index_exact_partial"
   ],
   "note": "REFUTED from readPropertyMultiple on; exact formula proved."
  },
  {
   "property": "C74",
   "status": "partial",
   "theorems": [
    "c74_open_on_stored_network_refuted",
    "c74_new_without_store_refuted",
    "c74_network_partial"
   ],
   "note": "REFUTED: networks of Store.NewNetwork have a nil Store. Proved for networks of network.New with a store."
  },
  {
   "property": "C75",
   "status": "partial",
   "theorems": [
    "c75_wrong_kind_refuted",
    "c75_device_stored_partial",
    "c75_network_stored_partial",
    "c75_lookup_exact_partial"
   ],
   "note": "REFUTED: the id of another kind panics. Proved: the get/set laws."
  },
  {
   "property": "C76",
   "status": "partial",
   "theorems": [
    "c76_point_read_refuted",
    "c76_point_float_exact_partial",
    "c76_point_unsigned_exact_partial",
    "c76_names_exact_partial",
    "c76_string_exact_partial",
    "c76_failed_read_partial",
    "c76_read_sends_partial"
   ],
   "note": "REFUTED: a value of another type is reported as 0 or an empty text with a nil error. Proved: exactly what is returned for every answer, and errors for failures."
  },
  {
   "property": "C77",
   "status": "proved",
   "theorems": [
    "c77_point_writes",
    "c77_point_write_frames"
   ],
   "note": "analogue writes to other types than 4 and 5 (see C78); texts up to 60000 octets"
  },
  {
   "property": "C78",
   "status": "partial",
   "theorems": [
    "c78_write_never_crashes_refuted",
    "c78_write_total_partial"
   ],
   "note": "REFUTED: analogue write to a binary output or value. Proved: no other write of a writable value crashes."
  },
  {
   "property": "C79",
   "status": "partial",
   "theorems": [
    "c79_bad_priority_refused_refuted",
    "c79_release_refuses_partial"
   ],
   "note": "REFUTED for writes; PointReleasePriority does refuse."
  },
  {
   "property": "C80",
   "status": "proved",
   "theorems": [
    "c80_release"
   ],
   "note": ""
  },
  {
   "property": "C81",
   "status": "partial",
   "theorems": [
    "c81_announced_kept_refuted",
    "c81_network_discover_exact_partial"
   ],
   "note": "REFUTED: APDU size and segmentation become 0 when the reads fail. Proved: exact entry of every device."
  },
  {
   "property": "C82",
   "status": "partial",
   "theorems": [
    "c82_details_refuted",
    "c82_details_exact_partial"
   ],
   "note": "REFUTED: no error is ever returned and services are not read. Proved: exact result for every combination of answers and failures."
  },
  {
   "property": "C83",
   "status": "proved",
   "theorems": [
    "c83_device_points",
    "c83_listed_points"
   ],
   "note": "relative to the list DeviceObjects returns (C67)"
  },
  {
   "property": "C84",
   "status": "partial",
   "theorems": [
    "c84_scan_batches_refuted",
    "c84_scan_zero_refuted",
    "c84_scan_large_refuted",
    "c84_scan_exact_partial",
    "c84_scan_covers_partial"
   ],
   "note": "REFUTED: the first request asks for everything, size 0 panics, sizes above 4194303 ask nothing. Proved: exact requests and coverage."
  },
  {
   "property": "C85",
   "status": "partial",
   "theorems": [
    "c85_close_refuted",
    "c85_close_exact_partial"
   ],
   "note": "REFUTED: with closeLogs it closes standard error instead. Proved: exactly when the socket is closed."
  },
  {
   "property": "C86",
   "status": "partial",
   "theorems": [
    "c86_full_size_reply_refuted",
    "c86_delivered_exact_partial",
    "c86_fitting_reply_partial"
   ],
   "note": "REFUTED: the receive buffer has the announced size but also holds the lower-layer header; a conforming 1475-octet ack is cut and the cut ack hangs the decoder (C30). Proved: exactly the octets that fit are delivered; every reply that fits with its header is delivered whole."
  },
  {
   "property": "C87",
   "status": "partial",
   "theorems": [
    "c87_any_source_refuted",
    "c87_crash_exact_partial",
    "c87_ipv4_source_partial"
   ],
   "note": "REFUTED: the socket is dual-stack and an IPv6 source crashes Receive. Proved: it crashes exactly for non-IPv4 sources; every IPv4 or mapped source is reported as it is."
  },
  {
   "property": "C88",
   "status": "partial",
   "theorems": [
    "c88_receives_again_refuted",
    "c88_every_datagram_partial",
    "c88_until_error_partial"
   ],
   "note": "REFUTED: the first receive error ends the loop. Proved: until then every datagram is handed on once, in order."
  },
  {
   "property": "C89",
   "status": "partial",
   "theorems": [
    "c89_network_message_refuted",
    "c89_handled_as_apdu_exact_partial",
    "c89_no_contents_partial"
   ],
   "note": "REFUTED: the rest of the frame is handled as an APDU. Proved: exactly so for all message types but 1, 19 and 128; without contents nothing happens."
  },
  {
   "property": "C90",
   "status": "partial",
   "theorems": [
    "c90_routers_refuted",
    "c90_routers_exact_partial",
    "c90_request_partial"
   ],
   "note": "REFUTED: only the first two networks of a message are returned, none if it lists one. Proved: exact result for all sequences of messages, and the request."
  },
  {
   "property": "C91",
   "status": "proved",
   "theorems": [
    "c91_network_numbers",
    "c91_request"
   ],
   "note": ""
  },
  {
   "property": "C92",
   "status": "partial",
   "theorems": [
    "c92_nothing_lost_refuted",
    "c92_no_worker_refuted",
    "c92_negative_refuted",
    "c92_saved_partial",
    "c92_progress_partial",
    "c92_ends_partial"
   ],
   "note": "REFUTED: results are saved without waiting for the merging goroutine; no worker hangs, a negative number panics. Proved for all interleavings: what is saved was read, no instance twice, at most as many devices lost as there are workers, progress and termination."
  },
  {
   "property": "C93",
   "status": "partial",
   "theorems": [
    "c93_as_if_alone_refuted",
    "c93_as_if_alone_partial"
   ],
   "note": "REFUTED: with a recycled state object a call returns the value another device sent for another call (full execution given). Proved for all executions: every finished call behaved as alone in some environment whose answers all arrived, for its own id if no state object was recycled."
  },
  {
   "property": "C94",
   "status": "proved",
   "theorems": [
    "c94_ids_distinct"
   ],
   "note": ""
  },
  {
   "property": "C95",
   "status": "proved",
   "theorems": [
    "c95_everything_given_back",
    "c95_next_call_gets_id"
   ],
   "note": ""
  },
  {
   "property": "C96",
   "status": "proved",
   "theorems": [
    "c96_transaction_stays"
   ],
   "note": ""
  },
  {
   "property": "C97",
   "status": "partial",
   "theorems": [
    "c97_stays_up_refuted",
    "c97_panic_outside_partial",
    "c97_panic_inside_partial"
   ],
   "note": "REFUTED: a device that answers twice crashes the process. Proved for all executions: the only causes are an answer overtaken by Put, a datagram whose handler panics, and a call that panics alone."
  },
  {
   "property": "C98",
   "status": "proved",
   "theorems": [
    "c98_no_deadlock"
   ],
   "note": "a decoder that loops (C30) is excluded by [stuck]"
  },
  {
   "property": "C99",
   "status": "proved",
   "theorems": [
    "c99_answer_ends_call"
   ],
   "note": ""
  },
  {
   "property": "C100",
   "status": "partial",
   "theorems": [
    "c100_only_the_device_answers_refuted",
    "c100_source_ignored_partial"
   ],
   "note": "REFUTED: the source address is not looked at. Proved: it never makes a difference."
  },
  {
   "property": "C101",
   "status": "proved",
   "theorems": [
    "c101_names",
    "c101_listed",
    "c101_one_to_one",
    "c101_shown"
   ],
   "note": ""
  },
  {
   "property": "C102",
   "status": "partial",
   "theorems": [
    "c102_unparsable_written_refuted",
    "c102_written_exact_partial",
    "c102_other_types_exact_partial",
    "c102_no_answer_partial",
    "c102_no_value_partial"
   ],
   "note": "REFUTED: the conversion error is only logged; the result of the failed conversion (0) is written. Proved: the exact frames for every answer of the device and every text."
  },
  {
   "property": "C103",
   "status": "partial",
   "theorems": [
    "c103_datatype_refuted",
    "c103_datatype_exact_partial"
   ],
   "note": "REFUTED: enumerated properties are overwritten with an unsigned number. Proved: exactly when the datatype is kept."
  },
  {
   "property": "C104",
   "status": "partial",
   "theorems": [
    "c104_property_refuted",
    "c104_unknown_exact_partial",
    "c104_release_partial",
    "c104_frames_partial"
   ],
   "note": "REFUTED: the error of Get is assigned to a shadowed variable, an unknown name becomes property 0. Proved: for known names and numbers the frames are those of the property asked for (with c102_written_exact_partial)."
  },
  {
   "property": "C105",
   "status": "partial",
   "theorems": [
    "c105_read_command_refuted",
    "c105_network_commands_refuted",
    "c105_read_end_exact_partial"
   ],
   "note": "REFUTED: both commands crash in network.New because they pass no Store. Proved: beyond that the read command would crash on every value but a bit string."
  },
  {
   "property": "C106",
   "status": "proved",
   "theorems": [
    "c106_instances_meet"
   ],
   "note": "IAm, the receive path and WhoIs composed."
  },
  {
   "property": "C107",
   "status": "partial",
   "theorems": [
    "c107_found_reached_refuted",
    "c107_found_local_partial",
    "c107_found_routed_exact_partial"
   ],
   "note": "REFUTED: the station address of a routed device is cut to one octet (C43), so devices with longer addresses are not reached. Proved: local devices are reached and their answer is returned; a routed device is reached exactly when its address is one octet."
  },
  {
   "property": "C108",
   "status": "proved",
   "theorems": [
    "c108_own_answers",
    "c108_no_crash",
    "c108_reads_right",
    "c108_writes_confirmed"
   ],
   "note": "The positive counterpart of C93, C97 and C100: the assumption is about the network only (no late answers), not about sync.Pool."
  },
  {
   "property": "C109",
   "status": "proved",
   "theorems": [
    "c109_exact",
    "c109_found",
    "c109_sent"
   ],
   "note": "All discovery calls, their sending goroutines, the receive handlers and the publish/subscribe manager as one state machine."
  },
  {
   "property": "C110",
   "status": "partial",
   "theorems": [
    "c110_answer_found_refuted",
    "c110_last_found_refuted",
    "c110_followed_partial"
   ],
   "note": "REFUTED: the request is sent before or while the call registers, so an answer handled before that is lost; so is the one still in the channel when the timeout fires. Proved: what is announced while the call is registered is found if anything else in range is announced afterwards."
  },
  {
   "property": "C111",
   "status": "partial",
   "theorems": [
    "c111_returns_refuted",
    "c111_stuck_partial",
    "c111_returns_exact_partial",
    "c111_calm_partial"
   ],
   "note": "REFUTED: two I-Ams around the timeout and the call, and every later one, hangs for ever (C56). Proved: exactly the stuck states are final; in all other states every waiting call can return; spaced announcements never lead to a stuck state."
  },
  {
   "property": "C112",
   "status": "partial",
   "theorems": [
    "c112_error_reported_refuted",
    "c112_silent_partial",
    "c112_prompt_partial",
    "c112_in_time_partial"
   ],
   "note": "REFUTED: Subscribe overwrites the shared err before the sending goroutine reads it; the two network calls drop the error altogether. Proved: WhoIs reports it exactly when the sending goroutine is not interrupted between Send and the channel, and in every timed execution in which time passes only while nothing can go on."
  },
  {
   "property": "C113",
   "status": "proved",
   "theorems": [
    "c113_texts",
    "c113_apart",
    "c113_unambiguous"
   ],
   "note": "The generated String methods with their index tables, slices that could panic, against the declared constants."
  },
  {
   "property": "C114",
   "status": "partial",
   "theorems": [
    "c114_error_named_refuted",
    "c114_standard_exact_partial",
    "c114_bracketed_partial",
    "c114_unambiguous_partial",
    "c114_texts_partial"
   ],
   "note": "REFUTED: an UnknownProperty error is returned as \"error class PropertyError code ErrorCode(145)\" (C22). Proved: the exact text for every class below 240 and code below 256; the right one for bracketed errors; texts identify class and code."
  },
  {
   "property": "C115",
   "status": "partial",
   "theorems": [
    "c115_unit_name_refuted",
    "c115_exact_partial",
    "c115_binary_partial"
   ],
   "note": "REFUTED: the error of the read is dropped, so a point whose unit cannot be read is reported in \"SquareMeters\"; and unit 65598 as \"DegreesCelsius\" (truncation to uint16). Proved: the exact name for every answer and failure."
  },
  {
   "property": "C116",
   "status": "partial",
   "theorems": [
    "c116_multi_ack_refuted",
    "c116_octets_exact_partial",
    "c116_refused_partial",
    "c116_never_standard_partial"
   ],
   "note": "REFUTED: values are written without tag, and a second time after the closing tag. Proved: the exact octets for every list of objects, which values are refused, and that the answer is never the standard one."
  },
  {
   "property": "C117",
   "status": "partial",
   "theorems": [
    "c117_patterns_refuted",
    "c117_patterns_exact_partial"
   ],
   "note": "REFUTED: day 33 (odd days) counts as even, 32 (last day) also as odd, 34 (even days) as nothing. Proved: the exact table for every decoded date; months and last day are right."
  },
  {
   "property": "C118",
   "status": "proved",
   "theorems": [
    "c118_session",
    "c118_possible"
   ],
   "note": "For every state machine answering by the standard, every loss and every sequence of calls; c118_possible: every course of calls and losses occurs."
  },
  {
   "property": "C119",
   "status": "proved",
   "theorems": [
    "c119_read_your_writes",
    "c119_write_effect",
    "c119_origin"
   ],
   "note": "For every device whose properties keep what is written and do not influence each other."
  },
  {
   "property": "C120",
   "status": "proved",
   "theorems": [
    "c120_points",
    "c120_shows",
    "c120_release",
    "c120_apart",
    "c120_possible"
   ],
   "note": "For every state of the priority arrays; analog points with reals, binary and multi-state points with numbers (other uses: C76-C79)."
  },
  {
   "property": "C121",
   "status": "proved",
   "theorems": [
    "c121_outcome",
    "c121_one_moment",
    "c121_possible"
   ],
   "note": "For every state machine answering by the standard whose state may change between the attempts; c121_possible: every fate of the messages occurs."
  },
  {
   "property": "C122",
   "status": "proved",
   "theorems": [
    "c122_outcome",
    "c122_stored",
    "c122_possible"
   ],
   "note": "Devices on the local network (others: C43); writes without priority and of standard values (others: C32). A refused list is carried out a second time."
  },
  {
   "property": "C123",
   "status": "partial",
   "theorems": [
    "c123_linearizable_refuted",
    "c123_explained_partial",
    "c123_twice_partial",
    "c123_linearizable_partial",
    "c123_reads_partial"
   ],
   "note": "REFUTED: a write whose answer is lost is transmitted again and may then undo the later, confirmed write of another goroutine. Proved for all executions: each result is that of a moment during its call, no call is carried out more than twice, reads only once; linearizable if no write is carried out twice, in particular for reads."
  },
  {
   "property": "C124",
   "status": "partial",
   "theorems": [
    "c124_complete_refuted",
    "c124_faithful_partial",
    "c124_place_partial",
    "c124_unchanged_partial",
    "c124_possible_partial",
    "c124_device_partial"
   ],
   "note": "REFUTED: an object put at the front of the list between two parts of the scan makes Objects succeed without an object that was there all the time. Proved for all scans: the other claims, and completeness for objects that keep their place; an unchanging list is returned whole or an error is. Objects of standard types (others: C49)."
  },
  {
   "property": "C125",
   "status": "proved",
   "theorems": [
    "c125_requests",
    "c125_scans",
    "c125_request_result",
    "c125_scan_result",
    "c125_found",
    "c125_request_ends",
    "c125_answer_ends",
    "c125_scan_ends",
    "c125_after_hang"
   ],
   "note": "Holds although single calls misbehave as C93, C97, C110 and C111 say: the other kind of call is not affected, except that a panic ends the process."
  },
  {
   "property": "C126",
   "status": "partial",
   "theorems": [
    "c126_lists_refuted",
    "c126_requests_return_partial",
    "c126_steps"
   ],
   "note": "REFUTED for ReadMultiProperty: the answer of C30 keeps it in its decoder in a fair execution. Proved for all fair executions: every other request returns, and so does ReadMultiProperty unless it meets such an answer; no call takes more than twenty steps of its own."
  },
  {
   "property": "C127",
   "status": "partial",
   "theorems": [
    "c127_hang_refuted",
    "c127_exact",
    "c127_scans_return_partial"
   ],
   "note": "REFUTED: two announcements that arrive as the time-out passes keep WhoIs for ever in a fair execution (C111). Proved for all fair executions: a call returns exactly if discovery does not get stuck while the call is in Subscribe, and it does not if announcements come one at a time."
  },
  {
   "property": "C128",
   "status": "partial",
   "theorems": [
    "c128_lists_refuted",
    "c128_in_time_partial"
   ],
   "note": "REFUTED for ReadMultiProperty: after the answer of C30 it does not return however long one waits. Proved for all prompt timed executions: every other request, and ReadMultiProperty unless it meets such an answer, has returned once its limit is over."
  },
  {
   "property": "C129",
   "status": "proved",
   "theorems": [
    "c129_never_early",
    "c129_reported"
   ],
   "note": "For all timed executions, whatever the scheduler does."
  },
  {
   "property": "C130",
   "status": "proved",
   "theorems": [
    "c130_not_lost"
   ],
   "note": "For datagrams that publish nothing to discovery, as every answer to a request does; one that also announces something waits for a hung discovery first (C111). The attempt may end with another answer to the same invoke id that was already on its way."
  },
  {
   "property": "C131",
   "status": "partial",
   "theorems": [
    "c131_in_time_refuted",
    "c131_exact",
    "c131_one_by_one_partial",
    "c131_silence_partial"
   ],
   "note": "REFUTED: two announcements in the moment the time-out passes keep WhoIs for ever (C111), however long one waits. Proved for all prompt timed executions: after 10 s the call has returned exactly if discovery did not get stuck while it was in Subscribe; it has if announcements come one at a time; and unless discovery gets stuck it returns within 2 s of the last announcement."
  },
  {
   "property": "C132",
   "status": "proved",
   "theorems": [
    "c132_never_early",
    "c132_stays"
   ],
   "note": "For all timed executions, whatever the scheduler does."
  },
  {
   "property": "C133",
   "status": "proved",
   "theorems": [
    "c133_heard"
   ],
   "note": "For every call that has returned; one that has not is stuck in the sense of C111 (C131). What arrives in the moment the wait is over, or before the call has registered, may be lost (C110)."
  },
  {
   "property": "C134",
   "status": "partial",
   "theorems": [
    "c134_construction_refuted",
    "c134_construction_exact_partial"
   ],
   "note": "REFUTED: a proper IPv6 address with a mask panics once the socket is open. Proved: exactly these texts and ports panic."
  },
  {
   "property": "C135",
   "status": "proved",
   "theorems": [
    "c135_named_interface",
    "c135_unknown_interface"
   ],
   "note": "The list of addresses of an interface is a parameter, in the notation the system reports."
  },
  {
   "property": "C136",
   "status": "partial",
   "theorems": [
    "c136_mapped_refuted",
    "c136_mapped_exact_partial",
    "c136_dotted_partial"
   ],
   "note": "REFUTED: the broadcast address of every IPv4-mapped text with a mask of 96 or more is 0.0.0.0. Proved: that, and that every dotted text gives the subnet broadcast address."
  },
  {
   "property": "C137",
   "status": "partial",
   "theorems": [
    "c137_suffix_refuted",
    "c137_valid_ip_exact_partial"
   ],
   "note": "REFUTED: /128 is accepted after an IPv4 address, and /32 after IPv6 addresses that end in dotted notation. Proved: exactly the accepted texts, against a grammar of address texts."
  },
  {
   "property": "C138",
   "status": "proved",
   "theorems": [
    "c138_valid_cidr"
   ],
   "note": "Against the same grammar of address texts."
  },
  {
   "property": "C139",
   "status": "partial",
   "theorems": [
    "c139_no_race_refuted",
    "c139_only_two_partial",
    "c139_without_partial",
    "c139_any_discovery_partial"
   ],
   "note": "REFUTED: a request that gets a recycled state object writes its channel field while the handler of a late answer may be reading it; every discovery call shares its variable err with the goroutine that transmits. Proved: every race of every execution is one of these two, a client without discovery calls and without recycling has none, and any waiting discovery call whose transmission is outstanding can come to the second."
  },
  {
   "property": "C140",
   "status": "partial",
   "theorems": [
    "c140_crossed_refuted",
    "c140_as_alone_partial",
    "c140_clocked"
   ],
   "note": "REFUTED: the answer to another goroutine's request, overtaken by its time-out, is taken for the length of the list (C93): Objects returns an empty list although nothing has arrived for its request. Proved for all interleavings: datagrams and result are those of Objects alone for answers that have arrived, and for its own requests if the pool hands out new objects only."
  },
  {
   "property": "C141",
   "status": "proved",
   "theorems": [
    "c141_returned",
    "c141_success",
    "c141_meanwhile"
   ],
   "note": "For all prompt timed executions in which the caller goes on at once; encoding and decoding take no time."
  },
  {
   "property": "C142",
   "status": "proved",
   "theorems": [
    "c142_fails",
    "c142_fast"
   ],
   "note": "The closed socket is a run in which no transmission succeeds; discovery calls on a closed client are the matter of C112. Executions in which the process has panicked are left out."
  },
  {
   "property": "C143",
   "status": "partial",
   "theorems": [
    "c143_crossed_refuted",
    "c143_discover_partial",
    "c143_devices_partial",
    "c143_objects_partial",
    "c143_points_partial"
   ],
   "note": "REFUTED: a late answer to another goroutine's request is taken for the name of a device (C93): device 2 is listed with the name of device 1. Proved for all interleavings: requests and result are those of the scan alone for answers that have arrived, and for its own requests if the pool hands out new objects only. The Who-Is the scans begin with is the matter of C109-C112, C127."
  },
  {
   "property": "C144",
   "status": "proved",
   "theorems": [
    "c144_discover",
    "c144_devices",
    "c144_objects",
    "c144_points",
    "c144_meanwhile"
   ],
   "note": "For all prompt timed executions in which the scan goes on at once; the time of the Who-Is is C131."
  },
  {
   "property": "C145",
   "status": "partial",
   "theorems": [
    "c145_as_written_refuted",
    "c145_exact_partial",
    "c145_as_written_partial"
   ],
   "note": "REFUTED: WhoIs writes 65535 into NetworkNumber of the options when GlobalBroadcast is set; with GlobalBroadcast switched off again the next Who-Is still goes to all networks. Proved for all sequences: exactly which calls do, all others are as written."
  },
  {
   "property": "C146",
   "status": "partial",
   "theorems": [
    "c146_left_refuted",
    "c146_only_unsent_partial",
    "c146_in_time_partial",
    "c146_unsubscribed_partial",
    "c146_clean_partial"
   ],
   "note": "REFUTED: a WhoIs whose transmission fails only after Subscribe has returned comes back at whois.go:68 without receiving from errChan; the sending goroutine stays blocked for good. Proved for all runs: only a WhoIs that reports a failed transmission does so; none does if time passes only while nothing can go on; subscriptions are always taken back."
  },
  {
   "property": "C147",
   "status": "partial",
   "theorems": [
    "c147_list_refuted",
    "c147_missing_output_refuted",
    "c147_no_client_refuted",
    "c147_shows_partial",
    "c147_small_partial",
    "c147_silent_partial"
   ],
   "note": "REFUTED: the command exits when the object list, which it does not use, cannot be read in one answer; one missing output hides what the device gave of the others; without a client it crashes. Proved: all that is answered is shown otherwise, with exactly these requests."
  },
  {
   "property": "C148",
   "status": "partial",
   "theorems": [
    "c148_in_time_refuted",
    "c148_discover_partial",
    "c148_served_partial",
    "c148_devices_partial",
    "c148_objects_partial",
    "c148_points_partial",
    "c148_listed",
    "c148_heard",
    "c148_one_device_partial",
    "c148_one_device_refuted"
   ],
   "note": "REFUTED: the Who-Is need not return (C131), so that the scan does not come to anything; for device 0 DeviceObjects and GetDevicePoints ask for all devices. Proved: the bounds if announcements come one at a time, or if discovery does not get stuck while the Who-Is waits; what is listed, for all runs."
  },
  {
   "property": "C149",
   "status": "partial",
   "theorems": [
    "c149_bounded_refuted",
    "c149_order_refuted",
    "c149_grows_exact_partial",
    "c149_once_partial",
    "c149_in_order_partial",
    "c149_deaf_exact",
    "c149_closed_partial"
   ],
   "note": "REFUTED: every Whois, NetworkDiscover, DeviceDiscover, GetDevicePoints and DeviceObjects with the check starts one more receive loop that stays until the socket gives an error; with two, datagrams overtake one another. Proved for all runs: the exact number of loops, every datagram handed on once, in order with one loop; exactly when the client hears; after the socket is closed all loops end."
  },
  {
   "property": "C150",
   "status": "partial",
   "theorems": [
    "c150_other_object_refuted",
    "c150_point_refuted",
    "c150_segment_refuted",
    "c150_any_answer_exact_partial",
    "c150_head_ignored_partial",
    "c150_segments_partial",
    "c150_says_which_partial"
   ],
   "note": "REFUTED: neither service, segmentation, object nor property of an acknowledgement are compared with the request; the point reads return the value of another point without an error, and the first segment of a long answer can read as a value. Proved for all requests and answers: any conforming value about anything is taken, the head never matters to any of the four calls; segments with window size outside 8..15 are refused; ReadProperty returns the object, property and index of the answer."
  },
  {
   "property": "C151",
   "status": "partial",
   "theorems": [
    "c151_type_refuted",
    "c151_length_refuted",
    "c151_version_refuted",
    "c151_destination_refuted",
    "c151_fields_ignored_partial",
    "c151_destination_ignored_partial",
    "c151_functions_partial",
    "c151_cut_partial"
   ],
   "note": "REFUTED: type, length and version are read and never looked at, and so is the destination. Proved for all datagrams: of the first five octets only the function makes a difference, destination, hop count and priority make none; other functions have no effect; an answer cut one octet into a further value is taken for the answer of the values before."
  },
  {
   "property": "C152",
   "status": "partial",
   "theorems": [
    "c152_look_refuted",
    "c152_made_partial",
    "c152_outside_exact_partial",
    "c152_received_partial",
    "c152_look_exact_partial"
   ],
   "note": "REFUTED: a received bit string of no octets with unused bits has up to 255 bits and crashes GetValue, an empty one is a nil pointer; SetBit, Bit and Byte between the size and 15 octets crash. Proved: the laws for all strings made within their size and for all conforming strings received, and exactly which received strings and which indices crash."
  },
  {
   "property": "C153",
   "status": "partial",
   "theorems": [
    "c153_shell_refuted",
    "c153_empty_refuted",
    "c153_variable_partial",
    "c153_passwd_partial",
    "c153_command_partial",
    "c153_windows_partial",
    "c153_remembered_partial",
    "c153_expand_partial",
    "c153_relative_partial",
    "c153_others_partial"
   ],
   "note": "REFUTED: without the program getent the shell is not asked (the error is compared with the wrong value), and an empty directory field gives an empty path without an error. Proved for all surroundings: where the directory is taken from on every system; it is remembered over all sequences of calls; Expand for all paths."
  },
  {
   "property": "C154",
   "status": "partial",
   "theorems": [
    "c154_shared_refuted",
    "c154_marked_refuted",
    "c154_properties_partial",
    "c154_looking_partial",
    "c154_strings_exact_partial",
    "c154_types_exact_partial"
   ],
   "note": "REFUTED: ListAll hands out the table of the package itself, so that one deletion takes a service away from every caller; a service with Supported set is another key of the map and has no name. Proved: the property names stay after all programs; the services stay as long as nobody edits the result of ListAll; exactly what GetString and GetType say after any program."
  },
  {
   "property": "C155",
   "status": "proved",
   "theorems": [
    "c155_counted_and_listed",
    "c155_put",
    "c155_texts_apart"
   ],
   "note": "Type and instance not negative (they are unsigned in the code)."
  },
  {
   "property": "C156",
   "status": "partial",
   "theorems": [
    "c156_unnamed_refuted",
    "c156_forged_refuted",
    "c156_named_partial",
    "c156_readings_exact_partial",
    "c156_values_partial"
   ],
   "note": "REFUTED: all properties outside the thirteen with a name print as Unknown without their number, and a text with a line feed prints as properties that were not read. Proved: readings whose values take one line each print alike exactly if they differ at most in the numbers of unnamed properties; simple values of a kind are told apart."
  },
  {
   "property": "C157",
   "status": "proved",
   "theorems": [
    "c157_listing"
   ],
   "note": "The lines are modelled as a list, without what the terminal makes of them. The read command declares the flag too, but never looks at it."
  }
 ]
}