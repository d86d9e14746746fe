{
 "claims": [
  {
   "property": "C01",
   "status": "partial",
   "theorems": [
    "C01_packet_round_trip_partial",
    "C01_appdata_packets_partial",
    "C01_response_packets_partial",
    "C01_long_body_panics",
    "C01_packet_round_trip_refuted"
   ],
   "note": "Every well-formed packet whose header and body together stay below 65536 bytes, with any bytes following the frame; longer bodies (65525..65535 bytes) are encoded but make Decode panic (refuted, and proved for all of them)."
  },
  {
   "property": "C02",
   "status": "proved",
   "theorems": [
    "C02_wire_layout"
   ],
   "note": "Every well-formed packet, encrypted or not, with any body below 65536 bytes."
  },
  {
   "property": "C03",
   "status": "proved",
   "theorems": [
    "C03_encrypted_round_trip"
   ],
   "note": "Every key whose decryption inverts its encryption; header and ciphertext together below 65536 bytes."
  },
  {
   "property": "C04",
   "status": "proved",
   "theorems": [
    "C04_encode_refuses_without_key",
    "C04_decode_refuses_without_key"
   ],
   "note": "Every packet and every input; the body left behind by Decode is the old one or an empty one."
  },
  {
   "property": "C05",
   "status": "partial",
   "theorems": [
    "C05_frame_data_length_partial",
    "C05_long_bodies",
    "C05_frame_data_length_refuted"
   ],
   "note": "Exact for bodies below 65536 bytes; longer bodies are not refused and their length is reduced modulo 65536 (refuted, exact result proved)."
  },
  {
   "property": "C06",
   "status": "partial",
   "theorems": [
    "C06_header_corruption_partial",
    "C06_routing_bit_refuted",
    "C06_header_corruption_refuted"
   ],
   "note": "Detected when the routing bit and the checksum byte stay unchanged and the length byte covers the header; also two errors at most 126 bits apart. Flipping the routing bit moves the checksum position and can be accepted (refuted)."
  },
  {
   "property": "C07",
   "status": "partial",
   "theorems": [
    "C07_body_corruption_partial",
    "C07_body_corruption_refuted"
   ],
   "note": "Detected when the length byte is the true header size; otherwise body bytes can lie outside both checksums (refuted)."
  },
  {
   "property": "C08",
   "status": "partial",
   "theorems": [
    "C08_panics_only_partial",
    "C08_no_panic_partial",
    "C08_no_panic_refuted",
    "C08_panics_exactly"
   ],
   "note": "C08_panics_exactly says for every key, byte string and spare capacity when Decode panics. Exact conditions for the panic, all of which involve an inconsistent length byte or a body beyond 65535; no panic when the length byte is 1..header size and HL+FDL is below 65536. Refuted for length byte 0 in any buffer below 255 bytes."
  },
  {
   "property": "C09",
   "status": "proved",
   "theorems": [
    "C09_decoding_terminates",
    "C09_packet_decoding_terminates"
   ],
   "note": "Packets, record sets and subrecord sets. Recursive equations without fuel; termination for every input with depth at most one more than the number of nonzero bytes."
  },
  {
   "property": "C10",
   "status": "partial",
   "theorems": [
    "C10_result_codes_partial",
    "C10_body_sum_code_refuted",
    "C10_every_outcome"
   ],
   "note": "All codes except the body checksum failure, which is reported as 137 (refuted). C10_every_outcome gives the outcome (a panic or a code) of every byte string with every key and spare capacity."
  },
  {
   "property": "C11",
   "status": "proved",
   "theorems": [
    "C11_accepted_frames"
   ],
   "note": "Every input, every prior receiver contents, every key."
  },
  {
   "property": "C12",
   "status": "proved",
   "theorems": [
    "C12_encode_twice"
   ],
   "note": "Every packet, including those whose encoding fails."
  },
  {
   "property": "C13",
   "status": "partial",
   "theorems": [
    "C13_header_only_packets_refuted"
   ],
   "note": "Refuted for every header-only packet: Decode answers 132."
  },
  {
   "property": "C14",
   "status": "proved",
   "theorems": [
    "C14_record_set_round_trip",
    "C14_records_of_known_subrecords"
   ],
   "note": "Every list of records with well-formed headers whose subrecord lists round-trip, any length."
  },
  {
   "property": "C15",
   "status": "partial",
   "theorems": [
    "C15_subrecord_set_round_trip_partial",
    "C15_subrecord_set_refuted"
   ],
   "note": "Every list of subrecords of the implemented types whose own codec round-trips; analog sensors with asymmetric flags do not survive (refuted)."
  },
  {
   "property": "C16",
   "status": "proved",
   "theorems": [
    "C16_unknown_subrecords_skipped",
    "C16_unknown_subrecords_in_records"
   ],
   "note": "Arbitrary subrecords before, arbitrary bytes after, every unknown type and payload."
  },
  {
   "property": "C17",
   "status": "partial",
   "theorems": [
    "C17_automatic_type_partial",
    "C17_explicit_type",
    "C17_automatic_type_refuted"
   ],
   "note": "All types but module data and dispatcher identity, for which the automatic type is missing (refuted)."
  },
  {
   "property": "C18",
   "status": "proved",
   "theorems": [
    "C18_length_is_encoded_size"
   ],
   "note": "All subrecord types, record sets, subrecord sets and responses; the packet has no Length."
  },
  {
   "property": "C19",
   "status": "partial",
   "theorems": [
    "C19_length_fields_partial",
    "C19_length_fields_refuted",
    "C19_record_length_refuted"
   ],
   "note": "Holds when length fields are 0 or correct; stale length fields of decoded and edited values are emitted unchanged (refuted)."
  },
  {
   "property": "C20",
   "status": "partial",
   "theorems": [
    "C20_decode_then_encode_partial",
    "C20_unknown_subrecord_refuted",
    "C20_trailing_bytes_refuted"
   ],
   "note": "Holds when the frame has the true header size, nothing after the checksum, no encryption, and a body whose own decode-encode is the identity; refuted for unknown subrecords and trailing bytes."
  },
  {
   "property": "C21",
   "status": "partial",
   "theorems": [
    "C21_truncated_packets_partial",
    "C21_short_inputs_rejected_partial",
    "C21_prefixes_refuted"
   ],
   "note": "Packets lose acceptance when cut anywhere up to the first checksum byte; minimal lengths for all decoders of fixed fields. Cutting the last byte of a multi-byte read is accepted (refuted for packets, records, liquid sensors and counters)."
  },
  {
   "property": "C22",
   "status": "partial",
   "theorems": [
    "C22_receiver_independence_partial",
    "C22_sets_append_refuted",
    "C22_packets_partial",
    "C22_receiver_independence_refuted"
   ],
   "note": "Everything but fields the flags declare absent is independent of the old contents; those fields stay stale and record sets are appended to (refuted)."
  },
  {
   "property": "C23",
   "status": "proved",
   "theorems": [
    "C23_pt_response_round_trip"
   ],
   "note": "Every id, result and optional record set that round-trips."
  },
  {
   "property": "C24",
   "status": "partial",
   "theorems": [
    "C24_term_identity_round_trip",
    "C24_malformed_flags_refuted"
   ],
   "note": "Round trip and wire layout for every well-formed value. Malformed flags are not refused by Encode (refuted)."
  },
  {
   "property": "C25",
   "status": "proved",
   "theorems": [
    "C25_module_data_round_trip"
   ],
   "note": "Round trip and wire layout for every well-formed value."
  },
  {
   "property": "C26",
   "status": "proved",
   "theorems": [
    "C26_auth_info_round_trip"
   ],
   "note": "Round trip and wire layout for every well-formed value."
  },
  {
   "property": "C27",
   "status": "proved",
   "theorems": [
    "C27_dispatcher_identity_round_trip"
   ],
   "note": "Round trip and wire layout for every well-formed value."
  },
  {
   "property": "C28",
   "status": "proved",
   "theorems": [
    "C28_response_round_trip",
    "C28_result_code_round_trip"
   ],
   "note": "Round trip and wire layout for every well-formed value of both types."
  },
  {
   "property": "C29",
   "status": "partial",
   "theorems": [
    "C29_pos_data_travels_as",
    "C29_pos_data_round_trip_partial",
    "C29_pos_data_round_trip_refuted"
   ],
   "note": "Exact description of what every well-formed value travels as; the round trip fails exactly for directions with the ninth bit set and bit 7 clear (refuted for 300 degrees)."
  },
  {
   "property": "C30",
   "status": "partial",
   "theorems": [
    "C30_coordinate_decode",
    "C30_coordinate_decode_monotone",
    "C30_coordinate_encode_decode",
    "C30_coordinate_decode_encode_partial",
    "C30_coordinate_decode_encode_refuted"
   ],
   "note": "Decoded value, range, strict monotonicity and encode-decode error proved for all values; decode-encode is off by at most one unit downwards, and is not the identity (refuted at raw 186415)."
  },
  {
   "property": "C31",
   "status": "proved",
   "theorems": [
    "C31_time_exact"
   ],
   "note": "Exact for all 2^32 values, navigation time and record time."
  },
  {
   "property": "C32",
   "status": "partial",
   "theorems": [
    "C32_speed_and_flags_partial",
    "C32_direction_refuted"
   ],
   "note": "Speed, sign and direction-high bits for all words; the direction does not determine the wire direction (refuted: 300 and 428 decode alike)."
  },
  {
   "property": "C33",
   "status": "proved",
   "theorems": [
    "C33_ext_pos_round_trip"
   ],
   "note": "Round trip and wire layout for every well-formed value."
  },
  {
   "property": "C34",
   "status": "partial",
   "theorems": [
    "C34_ad_sensors_round_trip_partial",
    "C34_ad_sensors_decode_layout",
    "C34_ad_sensors_round_trip_refuted"
   ],
   "note": "Encode writes the analog flags in reverse order: the round trip holds exactly for palindromic analog flag sets; Decode follows the standard layout for every value."
  },
  {
   "property": "C35",
   "status": "partial",
   "theorems": [
    "C35_counters_round_trip_partial",
    "C35_counters_round_trip_refuted"
   ],
   "note": "Counter 2 is decoded into counter 1: exact result proved for every value; round trip holds when counter 2 is absent."
  },
  {
   "property": "C36",
   "status": "proved",
   "theorems": [
    "C36_state_round_trip"
   ],
   "note": "Round trip and wire layout for every well-formed value."
  },
  {
   "property": "C37",
   "status": "partial",
   "theorems": [
    "C37_liquid_round_trip_partial",
    "C37_large_sensor_number_refuted"
   ],
   "note": "Round trip for sensor numbers 0..7; larger numbers are accepted and corrupt the flags (refuted)."
  },
  {
   "property": "C38",
   "status": "proved",
   "theorems": [
    "C38_abs_cntr_round_trip",
    "C38_abs_an_sens_round_trip"
   ],
   "note": "Round trip and wire layout for every well-formed value of both types."
  },
  {
   "property": "C39",
   "status": "partial",
   "theorems": [
    "C39_malformed_flags_refused_partial",
    "C39_malformed_flags_refused_refuted",
    "C39_malformed_packet_flags_partial"
   ],
   "note": "All encoders, packets included, but terminal identity, which ignores the error (refuted)."
  },
  {
   "property": "C40",
   "status": "partial",
   "theorems": [
    "C40_framing_partial",
    "C40_long_frames",
    "C40_framing_refuted"
   ],
   "note": "Every sequence of encoded frames of at most 65545 bytes followed by any stream, in any segmentation; a frame of 65547 bytes is cut after 11 bytes (refuted), and every longer frame is cut short."
  },
  {
   "property": "C41",
   "status": "proved",
   "theorems": [
    "C41_segmentation_independence",
    "C41_rounds"
   ],
   "note": "Every stream, every segmentation, all runs including those that panic."
  },
  {
   "property": "C42",
   "status": "proved",
   "theorems": [
    "C42_data_packets_are_acknowledged",
    "C42_all_runs"
   ],
   "note": "Every accepted data packet, every buffer contents behind it, every storage outcome; the answer decodes wherever it is stored."
  },
  {
   "property": "C43",
   "status": "proved",
   "theorems": [
    "C43_rejected_packets",
    "C43_the_stream_goes_on"
   ],
   "note": "Every packet on which Decode fails; the stream goes on with the following frames."
  },
  {
   "property": "C44",
   "status": "partial",
   "theorems": [
    "C44_position_records_saved_partial",
    "C44_nothing_else_saved",
    "C44_records_with_position_saved",
    "C44_streams",
    "C44_records_after_a_confirmation_refuted",
    "C44_position_records_saved_refuted"
   ],
   "note": "Packets without record confirmations, and whole streams; a record confirmation stops the processing of its packet and the positions after it are lost (refuted)."
  },
  {
   "property": "C45",
   "status": "proved",
   "theorems": [
    "C45_saved_data"
   ],
   "note": "Every accepted packet, every saved record."
  },
  {
   "property": "C46",
   "status": "proved",
   "theorems": [
    "C46_client_in_a_packet",
    "C46_client_on_a_connection"
   ],
   "note": "Packets and whole connections; the identity of a packet cut short by a confirmation is included."
  },
  {
   "property": "C47",
   "status": "proved",
   "theorems": [
    "C47_save_before_acknowledge",
    "C47_crash_points"
   ],
   "note": "Every point of execution of a packet and of a whole connection."
  },
  {
   "property": "C48",
   "status": "partial",
   "theorems": [
    "C48_acknowledged_is_stored_refuted",
    "C48_acknowledged_is_stored_partial"
   ],
   "note": "Refuted for every packet with a position: the answer is positive whatever Save returns. When Save reports success, every configured storage has accepted the record."
  },
  {
   "property": "C49",
   "status": "proved",
   "theorems": [
    "C49_storage_fan_out",
    "C49_success_means_all_stored"
   ],
   "note": "Any number of storages with any outcomes."
  },
  {
   "property": "C50",
   "status": "proved",
   "theorems": [
    "C50_storage_loading",
    "C50_any_iteration_order",
    "C50_there_is_a_storage"
   ],
   "note": "Every configuration, any iteration order of the configuration map."
  },
  {
   "property": "C51",
   "status": "proved",
   "theorems": [
    "C51_result_code_for_authentication"
   ],
   "note": "Every accepted data packet without record confirmations."
  },
  {
   "property": "C52",
   "status": "partial",
   "theorems": [
    "C52_written_packets_partial",
    "C52_result_code_packets_refuted"
   ],
   "note": "Every packet written on any stream is an answer accepted by Decode or the result code packet; the latter is rejected with 129 for every packet number (refuted)."
  },
  {
   "property": "C53",
   "status": "proved",
   "theorems": [
    "C53_responses_are_not_answered",
    "C53_no_ping_pong"
   ],
   "note": "Every response packet; also for the packets the receiver itself writes."
  },
  {
   "property": "C54",
   "status": "proved",
   "theorems": [
    "C54_other_traffic_is_dropped",
    "C54_any_stream"
   ],
   "note": "Every stream whose next frame does not begin with 1, after any sequence of frames."
  },
  {
   "property": "C55",
   "status": "partial",
   "theorems": [
    "C55_no_crash_partial",
    "C55_panicking_frames_refuted",
    "C55_empty_headers_refuted",
    "C55_no_crash_refuted",
    "C55_crash_exactly"
   ],
   "note": "C55_crash_exactly says for every stream when the handler crashes. No panic if every frame has a header length byte of 1..header size and declares fewer than 65536 bytes; refuted for an encoded frame with a body of 65527 bytes and for empty headers in small buffers."
  },
  {
   "property": "C56",
   "status": "proved",
   "theorems": [
    "C56_connections_are_isolated",
    "C56_every_interleaving"
   ],
   "note": "Any number of connections, every interleaving, of a step semantics with one shared storage and arbitrary outcomes; the process panic is excluded."
  },
  {
   "property": "C57",
   "status": "partial",
   "theorems": [
    "C57_idle_connections_refuted",
    "C57_no_deadline_refuted",
    "C57_after_eof_partial"
   ],
   "note": "Refuted: a peer that stays connected is never closed, whatever the time-to-live. After the peer has closed, the handler ends when the time-to-live has passed."
  },
  {
   "property": "C58",
   "status": "partial",
   "theorems": [
    "C58_stop_ends_run_refuted",
    "C58_connections_are_served_partial"
   ],
   "note": "Refuted: the accept loop has no exit. Every accepted connection is served."
  },
  {
   "property": "C59",
   "status": "partial",
   "theorems": [
    "C59_packet_number_partial",
    "C59_packet_number_refuted"
   ],
   "note": "Every combination with one or no counter; with both, the exact number saved, which is wrong unless the low byte is 0 and the middle bytes agree (refuted)."
  },
  {
   "property": "C60",
   "status": "partial",
   "theorems": [
    "C60_liquid_level_partial",
    "C60_liquid_level_refuted"
   ],
   "note": "All readings below 429496730 in litres and all readings in millimetres; larger ones overflow (refuted for all of them)."
  },
  {
   "property": "C61",
   "status": "partial",
   "theorems": [
    "C61_hemisphere_refuted"
   ],
   "note": "Refuted for every pair of packets differing in hemisphere flags only: all runs are the same."
  },
  {
   "property": "C62",
   "status": "proved",
   "theorems": [
    "C62_generator_and_receiver"
   ],
   "note": "Every packet id, object id, liquid level below 2^32 and all coordinates, every segmentation; the saved time is the constant in the program, not the argument."
  },
  {
   "property": "C63",
   "status": "partial",
   "theorems": [
    "C63_settings_partial",
    "C63_ttl_refuted",
    "C63_ttl_in_general"
   ],
   "note": "Time-to-live up to 9223372036 seconds, listen address, all log level names; larger values overflow (refuted); in general the product is cut to 64 bits."
  },
  {
   "property": "C64",
   "status": "proved",
   "theorems": [
    "C64_storage_round_trip",
    "C64_storage_wire_format",
    "C64_egtsplus_travels"
   ],
   "note": "Every record within the field types; the wire format is stated field by field over the schema of docs/egts_sr_egtsplus_data.proto."
  },
  {
   "property": "C65",
   "status": "proved",
   "theorems": [
    "C65_decoded_record_is_kept",
    "C65_received_egtsplus_travels"
   ],
   "note": "Every byte string."
  },
  {
   "property": "C66",
   "status": "proved",
   "theorems": [
    "C66_encode_needs_required_fields",
    "C66_decode_needs_required_fields"
   ],
   "note": "Both directions for encoding; decoding of every byte string."
  },
  {
   "property": "C67",
   "status": "proved",
   "theorems": [
    "C67_json_text",
    "C67_json_error",
    "C67_saved_records_have_json"
   ],
   "note": "Every record; the coordinates are read back as the same floats (C92)."
  },
  {
   "property": "C68",
   "status": "partial",
   "theorems": [
    "C68_json_is_read_back",
    "C68_json_loses_nothing",
    "C68_json_loses_nothing_refuted",
    "C68_saved_records_told_apart"
   ],
   "note": "Every pair of records whose text flags are UTF-8; the JSON grammar is proved unambiguous. Records with other flags are not told apart (refuted); every record the receiver saves has UTF-8 flags."
  },
  {
   "property": "C69",
   "status": "proved",
   "theorems": [
    "C69_saved_values"
   ],
   "note": "Every stream, every segmentation, all runs including those that panic."
  },
  {
   "property": "C70",
   "status": "proved",
   "theorems": [
    "C70_well_formed_answers",
    "C70_success_is_deserved"
   ],
   "note": "Every command line, every well-formed answer up to 1024 bytes (exact verdict) and every byte string (success only if deserved)."
  },
  {
   "property": "C71",
   "status": "partial",
   "theorems": [
    "C71_requested_time_refuted"
   ],
   "note": "Refuted for every run: the time is a constant."
  },
  {
   "property": "C72",
   "status": "partial",
   "theorems": [
    "C72_exit_status_refuted"
   ],
   "note": "Refuted: no run exits with 0."
  },
  {
   "property": "C73",
   "status": "partial",
   "theorems": [
    "C73_timeout_given",
    "C73_default_timeout_refuted"
   ],
   "note": "Given timeouts below 9223372036 s: exact. The documented default is refuted: without the flag no answer is ever read."
  },
  {
   "property": "C74",
   "status": "partial",
   "theorems": [
    "C74_when_a_packet_is_sent",
    "C74_what_is_sent",
    "C74_identifier_range_refuted"
   ],
   "note": "Sending condition and contents proved; identifiers out of range are sent modulo 65536 (refuted)."
  },
  {
   "property": "C75",
   "status": "partial",
   "theorems": [
    "C75_answers_in_pieces_refuted"
   ],
   "note": "Refuted for every answer and every first segment lacking two or more bytes."
  },
  {
   "property": "C76",
   "status": "partial",
   "theorems": [
    "C76_no_panic_refuted"
   ],
   "note": "Refuted: every bare positive response for the packet sent causes a panic."
  },
  {
   "property": "C77",
   "status": "proved",
   "theorems": [
    "C77_one_request",
    "C77_nil_record"
   ],
   "note": "Every connector, settings, record and library outcome; a nil record is refused without a request."
  },
  {
   "property": "C78",
   "status": "proved",
   "theorems": [
    "C78_statement_is_fixed"
   ],
   "note": "Every settings and record."
  },
  {
   "property": "C79",
   "status": "partial",
   "theorems": [
    "C79_redis_default_refuted",
    "C79_redis_init"
   ],
   "note": "Refuted for all settings: without db Init always fails. The exact condition for success is proved."
  },
  {
   "property": "C80",
   "status": "partial",
   "theorems": [
    "C80_nil_settings_refused",
    "C80_bad_settings_no_contact",
    "C80_init_success",
    "C80_incomplete_settings_refuted"
   ],
   "note": "nil settings and bad numbers are refused before any contact, for all settings and outcomes; missing settings are accepted by four of the six connectors (refuted)."
  },
  {
   "property": "C81",
   "status": "partial",
   "theorems": [
    "C81_postgresql_string_partial",
    "C81_empty_password_refuted",
    "C81_postgresql_string_refuted",
    "C81_rabbitmq_uri_partial",
    "C81_rabbitmq_uri_refuted",
    "C81_connections"
   ],
   "note": "Holds for values that are not empty and free of special characters; refuted otherwise (empty password, spaces, slashes). What each connector dials is proved for all settings."
  },
  {
   "property": "C82",
   "status": "partial",
   "theorems": [
    "C82_start",
    "C82_fan_out",
    "C82_every_record_to_every_storage_partial",
    "C82_working_storages_refuted",
    "C82_start_order_refuted"
   ],
   "note": "What is set up at start and what is sent for each record is exact, for all configurations, streams and failures; full delivery if no library call fails. Refuted with a failing storage: those behind it get nothing; and which storages are set up after a failure depends on map order."
  },
  {
   "property": "C83",
   "status": "partial",
   "theorems": [
    "C83_log_text",
    "C83_printed_partial",
    "C83_printed_refuted"
   ],
   "note": "The text printed is proved to be JSON of the record; printed at DEBUG and INFO (and unknown) levels; refuted at WARN and ERROR."
  },
  {
   "property": "C84",
   "status": "partial",
   "theorems": [
    "C84_tarantool_numbers_partial",
    "C84_numbers_in_general",
    "C84_negative_reconnects_refuted"
   ],
   "note": "Non-negative reconnection counts and times up to 9223372036 s; refuted for negative counts; in general the numbers are cut to 64 bits."
  },
  {
   "property": "C85",
   "status": "partial",
   "theorems": [
    "C85_settings_file_partial",
    "C85_documented_key_refuted"
   ],
   "note": "The keys conn_ttl, host, port and log_level; the documented key con_live_sec is ignored (refuted)."
  },
  {
   "property": "C86",
   "status": "proved",
   "theorems": [
    "C86_term_identity_accepts",
    "C86_module_data_accepts",
    "C86_dispatcher_accepts",
    "C86_auth_info_accepts",
    "C86_result_code_accepts",
    "C86_position_accepts",
    "C86_ext_position_accepts",
    "C86_sensors_accepts",
    "C86_counters_accepts",
    "C86_state_accepts",
    "C86_liquid_accepts",
    "C86_abs_counter_accepts",
    "C86_abs_sensor_accepts",
    "C86_response_accepts"
   ],
   "note": "An equivalence for each of the 14 types against a wire grammar of fields; quirks (counter 2 read as counter 1, four-byte altitude, shared read buffers) are part of the grammar. EGTS+ data is in C87 through the codec of C64-C66."
  },
  {
   "property": "C87",
   "status": "proved",
   "theorems": [
    "C87_records_accepts",
    "C87_subrecords_accepts",
    "C87_response_body_accepts"
   ],
   "note": "Equivalences with an inductive grammar of records and subrecords, for any nesting."
  },
  {
   "property": "C88",
   "status": "proved",
   "theorems": [
    "C88_readable_bodies",
    "C88_packet_accepts"
   ],
   "note": "Equivalence for all fields of the packet. Decryption is any function to bytes."
  },
  {
   "property": "C89",
   "status": "proved",
   "theorems": [
    "C89_packet_json",
    "C89_packet_json_is_read_back"
   ],
   "note": "Every packet within the field types. Floats are read back as the same floats (C92). Whether an empty slice is nil is a parameter: either text is allowed for it."
  },
  {
   "property": "C90",
   "status": "partial",
   "theorems": [
    "C90_received_packet_json",
    "C90_packets_without_plus",
    "C90_every_received_packet_has_a_text_refuted"
   ],
   "note": "Exactly the packets whose EGTS+ records have finite floats have a text; a fuel level that is not a number is accepted by Decode and has none (refuted)."
  },
  {
   "property": "C91",
   "status": "partial",
   "theorems": [
    "C91_packet_json_loses_nothing",
    "C91_received_packets_told_apart",
    "C91_any_names_refuted",
    "C91_unknown_fields_refuted"
   ],
   "note": "Packets whose strings are UTF-8, without unknown or empty EGTS+ fields, and received packets under the same conditions on the free strings only; user names that are not UTF-8 and unknown EGTS+ fields are lost (refuted by accepted frames)."
  },
  {
   "property": "C92",
   "status": "proved",
   "theorems": [
    "C92_float64_is_read_back",
    "C92_float32_is_read_back",
    "C92_float64_texts_differ",
    "C92_float32_texts_differ",
    "C92_float64_shortest",
    "C92_float32_shortest",
    "C92_float64_notation",
    "C92_float32_notation"
   ],
   "note": "Every finite float64 and every finite float32. strconv.AppendFloat is modelled by an exact search for the digits, not by its tables; reading rounds to nearest, ties to even, over the real numbers."
  },
  {
   "property": "C93",
   "status": "proved",
   "theorems": [
    "C93_subrecord_encoding",
    "C93_subrecord_no_panic",
    "C93_term_identity_never_refused",
    "C93_flags_can_shift"
   ],
   "note": "Equivalences for all 15 types, without conditions on the values. The float arithmetic of coordinates and position times is that of C30 and C31."
  },
  {
   "property": "C94",
   "status": "proved",
   "theorems": [
    "C94_subrecord_outcome",
    "C94_record_outcome",
    "C94_response_outcome",
    "C94_no_panic_with_data",
    "C94_nil_data_panics"
   ],
   "note": "Equivalences with an outcome relation (bytes, error or panic)."
  },
  {
   "property": "C95",
   "status": "proved",
   "theorems": [
    "C95_packet_outcome",
    "C95_packet_always_some_outcome",
    "C95_packet_bytes"
   ],
   "note": "Equivalence with an outcome relation that also gives the lengths stored in the packet. Byte fields hold bytes; encryption is any function to bytes."
  },
  {
   "property": "C96",
   "status": "partial",
   "theorems": [
    "C96_position_second",
    "C96_record_second",
    "C96_position_second_partial",
    "C96_first_half_year",
    "C96_same_second_refuted"
   ],
   "note": "The second written for a position is given exactly for every nanosecond. It is the earlier one for records always, for positions up to 239 ns before the next second and in the first half of 2010; later the last nanosecond of every second is written as the next second (refuted)."
  },
  {
   "property": "C97",
   "status": "partial",
   "theorems": [
    "C97_tool_outcome",
    "C97_file_is_sent_partial",
    "C97_unended_line_refuted"
   ],
   "note": "What the tool does is given for every text. All packets are sent if every line is ended; a last line without line end loses its last digit, so that its packet is not sent and the tool fails (refuted)."
  },
  {
   "property": "C98",
   "status": "partial",
   "theorems": [
    "C98_in_order",
    "C98_everything_arrives_partial",
    "C98_response_packet_refuted"
   ],
   "note": "All interleavings of the tool and the receiver, answers received in any pieces of up to 2048 bytes; the receiver handles a packet in one step. Holds for files of packets that are rejected or are data packets without record confirmations: at most three steps per packet, and no deadlock. A file beginning with a response packet is never sent any further (refuted). Python socket.send is taken to pass on all bytes."
  },
  {
   "property": "C99",
   "status": "partial",
   "theorems": [
    "C99_memory_behind_partial",
    "C99_bytes_after_partial",
    "C99_memory_behind_refuted",
    "C99_bytes_after_refuted"
   ],
   "note": "Holds if the header length declared is not 0 and header and body, as declared, end inside the slice, for bytes after the packet also if the body checksum does. Refuted: a packet with a header length three too large is accepted, refused or a panic depending on memory; a packet that ends with its header is accepted if two bytes FF follow."
  },
  {
   "property": "C100",
   "status": "partial",
   "theorems": [
    "C100_body_and_checksum_partial",
    "C100_body_and_checksum_refuted"
   ],
   "note": "Holds for up to 12 consecutive bits, any odd number of bits and two bits up to 32758 apart, when the length byte is the true header size. The checksum is sent low byte first, so 13 consecutive bits across the end of the body can go undetected (refuted); 12 is the limit."
  },
  {
   "property": "C101",
   "status": "partial",
   "theorems": [
    "C101_header_and_checksum_partial",
    "C101_three_bits_partial",
    "C101_length_byte_refuted",
    "C101_routed_header_refuted"
   ],
   "note": "Holds when the length byte and the routing flag are not hit, and in frames with routing fields the first bit is not. One wrong bit in the length byte can go undetected, as can the first and last bit of a header with routing fields (both refuted)."
  },
  {
   "property": "C102",
   "status": "proved",
   "theorems": [
    "C102_answer_bytes",
    "C102_whole_connections"
   ],
   "note": "Every frame and every stream; a frame on which Decode panics ends the receiver and is not answered."
  },
  {
   "property": "C103",
   "status": "proved",
   "theorems": [
    "C103_bounded_by_traffic",
    "C103_bounds_are_reached"
   ],
   "note": "Every stream and run. The worst case has a header length one too small, so that a byte of the body checksum is missing, and a last record that is filled up with zeros."
  },
  {
   "property": "C104",
   "status": "proved",
   "theorems": [
    "C104_command_lines",
    "C104_integers",
    "C104_generator",
    "C104_status_zero",
    "C104_what_is_sent",
    "C104_receiver"
   ],
   "note": "All command lines, as sequences of byte strings; int has 64 bits. strconv.ParseFloat is an arbitrary function."
  },
  {
   "property": "C105",
   "status": "partial",
   "theorems": [
    "C105_decimal_integers",
    "C105_leading_zeros_refuted"
   ],
   "note": "Holds without superfluous leading zeros. With one, every number from 8 on is read as another one or refused: -pid 010 is packet 8, -pid 08 an error (refuted)."
  },
  {
   "property": "C106",
   "status": "proved",
   "theorems": [
    "C106_from_command_line_to_storage"
   ],
   "note": "Composes C104, C72, C62, C30 and C70. The network (name resolution, dialling, time of the answer) and time.Parse are arbitrary functions."
  },
  {
   "property": "C107",
   "status": "proved",
   "theorems": [
    "C107_answers_die_out",
    "C107_without_logins"
   ],
   "note": "All streams and segmentations. A login is accepted with a packet the library cannot decode (C52), which is why there is a second round of answers."
  },
  {
   "property": "C108",
   "status": "partial",
   "theorems": [
    "C108_repeated_packets_are_confirmed_again",
    "C108_repeated_packets_are_saved_again",
    "C108_saved_once_refuted"
   ],
   "note": "The confirmation is the same. The records are saved again, as many and with the same contents (refuted): the receiver keeps nothing of a packet but the client number."
  },
  {
   "property": "C109",
   "status": "proved",
   "theorems": [
    "C109_getters"
   ],
   "note": "All 19 message types. Go names of fields are computed from the documented names by the naming rule of the generator. A message is what Protobuf.v makes of it: the list of values of each field."
  },
  {
   "property": "C110",
   "status": "proved",
   "theorems": [
    "C110_names",
    "C110_distinct",
    "C110_reading"
   ],
   "note": "The two uses of json.Unmarshal are any functions that read JSON strings and integers correctly, for texts without white space in front (encoding/json cuts it off). Numbers that are no documented reason are accepted too."
  },
  {
   "property": "C111",
   "status": "partial",
   "theorems": [
    "C111_header_fields_partial",
    "C111_two_bytes",
    "C111_half_numbers",
    "C111_header_fields_refuted"
   ],
   "note": "Holds, flag fields included, from three bytes on, unless the content ends after the first byte of the packet number or of an address; with fewer than three bytes all but the first two fields are empty. If half of a number is missing, the second byte of the number before it is taken for it, because both are read into one buffer (refuted, with the exact values)."
  },
  {
   "property": "C112",
   "status": "proved",
   "theorems": [
    "C112_descriptor",
    "C112_index",
    "C112_registered"
   ],
   "note": "The whole descriptor, by computation with a gzip reader that is part of the model (proved right on stored data, tested on a small compressed file). The descriptor as protoc writes it is part of the specification."
  },
  {
   "property": "C113",
   "status": "proved",
   "theorems": [
    "C113_reset"
   ],
   "note": "All 19 message types."
  }
 ]
}