# Formal model of kuznetsovin/egts-protocol

The model is a shallow embedding of the Go code in Gallina, function by function,
checked with Rocq/Coq 8.16.1.  Build: `cd rocq && coq_makefile -f _CoqProject -o Makefile && make -j4`.

## Files (`rocq/theories/`)

* Model files (definitions only): `GoBase` (bytes, readers, strings, ParseUint, Sprintf),
  `GoFloat` (float64, time), `Crc`, `SubRecords`, `Records`, `Package`, `Storage`, `Config`, `Server`, `PacketGen`,
  `Protobuf` (the proto2 codec and the messages of EGTS_SR_EGTSPLUS_DATA), `NumText` (the texts of integers and floats), `Json` (the stored form of records), `TimeText` (times and bytes in JSON), `PkgJson` (`Package.ToBytes`),
  `Connect` (the storage connectors), `SendTool` (`tools/send_egts.py`, alone and connected to the receiver), `Flags` (command lines), `EgtsPlus` (the methods of the EGTS+ messages), `Descriptor` (their descriptor and a gzip reader; compress/gzip itself is not modelled).
* `Spec` - specifications that do not use the model's helpers.
* `TestVectors` - generated by `tools/vectors.py` from the repository's unit tests and its sample packets (`test/egts_packages.csv`),
  read as text: the model gives what the tests expect, and the receiver answers all 126 sample packets.
  These are tests of the model, not proofs.
* `*Facts`, `CrcBurst`, `Srv*` - lemmas.  `Prop*` - the property theorems, each with a concrete instance.  `Assumptions1`-`4` run `Print Assumptions` on each of them.

## Trusted base

* Coq's kernel (and coqchk).
* Axioms: see the list at the end of this file; nothing except the standard library's axioms of the real numbers
  (used by Flocq in statements about float64) and the standard axioms it pulls in.
* The faithfulness of the model to the Go code, i.e. the modelling decisions below.

### Modelled

* Bytes are numbers below 256 (`N`), `[]byte` is `list N`; fixed-width unsigned integers are `N` with explicit
  `mod` at every operation that can wrap; Go strings are Coq `string`s (sequences of 8-bit characters).
* A slice passed to `Package.Decode` has extra capacity: Go slicing `content[:n]` may reach into it.  The model
  takes the backing bytes after the slice as an extra argument, so panics are exact.
* `bytes.Reader.Read`, `bytes.Buffer.Read`, `ReadByte`, `Next`, `ReadString` including short reads (only a prefix
  of the target is overwritten) and EOF on an empty source.
* `strconv.ParseUint(s, 2, n)` on arbitrary strings, with the value it returns on error; `fmt.Sprintf("%0wb")`.
* Panics (slice bounds, nil interface) as an explicit outcome; running out of recursion fuel as another, proved unreachable.
* `float64` as IEEE binary64 (Flocq), round to nearest even.  `time.Time` as an integer number of nanoseconds.
* `handleConn` as a function from the byte stream to a trace of effects (save, write, close, panic).
* goroutine interleaving of several connections.

### Not modelled

* Error message texts, logging (except by the log connector), YAML parsing (only which keys are used).  `strconv.ParseFloat` and `time.Parse` are arbitrary functions.
* The algorithm of `strconv.AppendFloat` (tables of powers): the shortest text of a float is modelled by an exact search for the digits
  (`NumText.v`), which gives what the function is documented to give.
* Whether an empty slice in a packet is nil or not is not part of a packet in the model; `Package.ToBytes` takes it as an argument (`nils`), and the theorems hold for either.
  `SrPosData.SourceData` is written as 0, the only value the library gives it; interfaces holding nil pointers are left out.
* Most theorems leave the codec of `StorageRecord` (EGTS_SR_EGTSPLUS_DATA) arbitrary (`Env`), so they hold for any; C64-C66
  are about the proto2 codec itself, see the head of `Protobuf.v`.
* Conversion of an out-of-range or NaN float64 to uint32 (implementation-defined in Go): an arbitrary function.
* The libraries behind the storage connectors: every library call succeeds or fails arbitrarily (`Connect.v`).  In the theorems
  on the handler alone a storage is an arbitrary success/failure oracle; C82 composes the two.
* Write errors on the connection (ignored by the code), memory exhaustion, data races (the handlers share only the
  repository, which is read-only after start-up).
* In `SendTool`: partial sends, lost connections, text encodings; the receiver handles a packet in one step of the composed system.
* Of the EGTS+ messages: `String` (CompactTextString) and `Enum`; the registry of package proto, beyond the names handed to it; the tags of the fields and the getters are tables in `EgtsPlus`.
* Locations and monotonic readings of `time.Time`.
* The partially filled receiver of a subrecord decoder that returned an error (the callers drop it).

### Wrong programs

`seeded/LOG.jsonl` has one line per wrong program tried: the definition edited, the edit, the claim it breaks, the proof
scripts that no longer go through (`proofs_failed`), the property theorems that fail or use a failed lemma
(`theorems_failed`), and the theorems changed because a wrong program got past them (`theorems_tightened`).

## Plan per property

* **C01 Packet round trip (unencrypted)** - Model Package/ServiceDataSet/RecordDataSet/subrecord Encode and Decode; prove decode(encode p) = p with filled-in fields, by induction over the lists and linear rewriting through the optional fields.
* **C02 Packet wire layout** - Separate layout specification (bytes as arithmetic on fields, CRCs by bitwise polynomial division) and a theorem that Encode returns exactly those bytes.
* **C03 Encrypted round trip** - Secret key as an arbitrary pair of partial functions; theorem under decode(encode x)=x.
* **C04 Encrypted packets are refused without a key** - Both directions, for all inputs.
* **C05 Frame data length equals the body length** - True for bodies up to 65535 bytes; refuted at 65536 (body dropped) and above (length truncated).
* **C06 Header corruption is always detected** - CRC-8 modelled bit by bit; injectivity of the bit step gives burst detection; parity invariant gives odd-weight detection; lifted to Decode.
* **C07 Body corruption is always detected** - Same for CRC-16; two-bit errors via the multiplicative order of x modulo the generator.
* **C08 Decode never panics** - Refuted by an 11-byte packet; exact panic condition proved for every input (C08_panics_exactly).
* **C09 Decode terminates with bounded recursion** - Decode is modelled with fuel as an explicit error value; fuel = 1 + input length is proved sufficient through the measure 'number of non-zero bytes', and results do not depend on fuel beyond that.
* **C10 Result codes report the cause of the failure** - Total classification of the outcome of every input by cause (C10_every_outcome, an inductive verdict with one rule per cause); refuted for the body checksum (137 instead of 138).
* **C11 Accepted frames carry correct checksums** - Direct from the model for all inputs.
* **C12 Encoding a packet twice gives the same bytes** - Encode returns the updated receiver; second Encode on it gives the same result.
* **C13 Header-only packets decode** - Refuted for every header-only packet.
* **C14 Record set round trip** - Induction over the record list.
* **C15 Subrecord set round trip** - Induction over the subrecord list.
* **C16 Unknown subrecords are skipped** - Induction; unknown = type code outside the implemented set.
* **C17 Automatic subrecord typing** - Type table as a specification; two types (module data, dispatcher identity) have no automatic code: refuted for those.
* **C18 Length() equals the encoded size** - Theorem per type and for the containers.
* **C19 Emitted length fields are consistent** - True when length fields are 0 or correct; refuted for stale lengths after decoding and editing.
* **C20 Decode then encode reproduces the bytes** - Refuted (altitude, unknown subrecords, speed tenths, direction, coordinates); proved for frames in canonical form as the positive part.
* **C21 Truncated data is rejected** - Refuted with witnesses; positive part: which decoders do reject every proper prefix.
* **C22 Decoding is independent of the receiver's previous contents** - Refuted with witnesses; positive part for the types without optional fields and for fresh receivers.
* **C23 PtResponse round trip** - Direct plus C14.
* **C24 EGTS_SR_TERM_IDENTITY round trip** - Model the functions named in the anchors; direct proof for all values satisfying the well-formedness condition.
* **C25 EGTS_SR_MODULE_DATA round trip** - Model the functions named in the anchors; direct proof for all values satisfying the well-formedness condition.
* **C26 EGTS_SR_AUTH_INFO round trip** - Model the functions named in the anchors; direct proof for all values satisfying the well-formedness condition.
* **C27 EGTS_SR_DISPATCHER_IDENTITY round trip** - Model the functions named in the anchors; direct proof for all values satisfying the well-formedness condition.
* **C28 EGTS_SR_RECORD_RESPONSE and EGTS_SR_RESULT_CODE round trip** - Model the functions named in the anchors; direct proof for all values satisfying the well-formedness condition.
* **C29 EGTS_SR_POS_DATA (non-coordinate fields) round trip** - Model the functions named in the anchors; direct proof for all values satisfying the well-formedness condition.
* **C30 EGTS_SR_POS_DATA coordinates** - Flocq binary64; error analysis for all raw values and floats; decode-encode identity refuted by a witness, with the bound 'off by at most one, downwards' as the positive part.
* **C31 EGTS_SR_POS_DATA time** - Times are integers (nanoseconds); float Seconds() modelled in binary64; exactness for all 2^32 values.
* **C32 EGTS_SR_POS_DATA direction and speed** - Bit arithmetic; direction refuted (two wire directions decode to the same value).
* **C33 EGTS_SR_EXT_POS_DATA round trip** - Model the functions named in the anchors; direct proof for all values satisfying the well-formedness condition.
* **C34 EGTS_SR_AD_SENSORS_DATA round trip** - Refuted (encoder writes the analog flags in reverse order); positive part: palindromic flag sets.
* **C35 EGTS_SR_COUNTERS_DATA round trip** - Refuted (counter 2 is stored in counter 1); positive part: counter 2 absent.
* **C36 EGTS_SR_STATE_DATA round trip** - Model the functions named in the anchors; direct proof for all values satisfying the well-formedness condition.
* **C37 EGTS_SR_LIQUID_LEVEL_SENSOR round trip** - Numbers below 8 proved; larger numbers refuted.
* **C38 EGTS_SR_ABS_CNTR_DATA and EGTS_SR_ABS_AN_SENS_DATA round trip** - Model the functions named in the anchors; direct proof for all values satisfying the well-formedness condition.
* **C39 Malformed flag strings are refused** - ParseUint is modelled on arbitrary strings; proved for all encoders but terminal identity, which is refuted.
* **C40 Stream framing** - Server modelled on byte streams; framing theorem for all sequences of encoded frames with HL + FDL + 2 < 65536; wrap-around refuted.
* **C41 Segmentation independence** - Connection as list of chunks; io.ReadFull over chunks equals reading from the concatenation.
* **C42 Every accepted data packet is acknowledged** - handleConn modelled as a function from packet to effects; ack compared to an independent specification through Decode.
* **C43 A packet that fails to decode is answered with its code and saves nothing** - Theorem about the effects trace of the handler model.
* **C44 Every position record is saved exactly once, in order** - Theorem about the effects trace of the handler model.
* **C45 Saved records carry the packet's data** - Theorem about the effects trace of the handler model.
* **C46 Client identity** - Theorem about the effects trace of the handler model.
* **C47 Save before acknowledge** - Effects are an ordered trace; statement about every prefix of the trace.
* **C48 An acknowledged record is stored** - Refuted: storage failure is only logged.
* **C49 Storage fan-out** - Theorem about the effects trace of the handler model.
* **C50 Storage loading** - Theorem about the effects trace of the handler model.
* **C51 Authentication answer** - Theorem about the effects trace of the handler model.
* **C52 The receiver's packets are decodable** - Refuted: result-code packets have packet type 0 but a record-set body.
* **C53 Response packets are not answered** - Theorem about the effects trace of the handler model.
* **C54 Non-EGTS traffic is dropped** - Theorem about the effects trace of the handler model.
* **C55 No remote crash** - Refuted; exact crash condition proved for every stream (C55_crash_exactly).
* **C56 Connection isolation** - Small-step interleaving semantics of any number of handlers; projection theorem.
* **C57 Idle connections are closed** - Refuted: no timer event ever closes a connection; model of the timer.
* **C58 Stop ends Run** - Refuted: accept loop model never terminates.
* **C59 Packet number reassembly** - Refuted for 110+111; positive parts proved.
* **C60 Liquid level units** - Units proved; overflow refuted.
* **C61 Saved coordinates include the hemisphere** - Refuted.
* **C62 Packet generator and receiver interoperate** - Composition of packet-gen model, framing, handler and Decode.
* **C63 Settings accessors** - Theorem about the effects trace of the handler model.
* **C64 EGTS+ record round trip** - Generic proto2 codec over message descriptors, two levels of nesting; round trip by induction over the fields and repeated values.
* **C65 Received EGTS+ records can be sent on** - Every decoded record satisfies the representability condition of C64.
* **C66 EGTS+ required fields** - Recursive required-field check on both sides.
* **C67 The stored form of a record is JSON** - JSON grammar (with white space) as a specification; printer correctness by induction on values.
* **C68 The stored form loses nothing** - Unambiguity of the grammar by mutual induction on derivations; strings as UTF-8 with U+FFFD for other bytes; refuted for flags that are not UTF-8, proved for saved records.
* **C69 Saved values are in range** - Ranges of every decoded subrecord, lifted to all runs of the handler.
* **C70 The packet generator reports success exactly for a positive acknowledgement** - Round trip of response packets gives the exact verdict; C11 gives what any accepted answer satisfies.
* **C71 The packet generator sends the time asked for** - Decoding of the frame sent; refuted.
* **C72 The exit status of the packet generator tells success** - Case analysis; refuted.
* **C73 The packet generator waits as long as asked** - Case analysis of the read deadline; default refuted.
* **C74 The packet generator sends one packet with the arguments, or nothing** - Case analysis of main and decoding of the frame sent; range check refuted.
* **C75 The packet generator accepts an answer in pieces** - Length argument on truncated frames; refuted.
* **C76 No answer makes the packet generator panic** - Refuted.
* **C77 A Save is one request to the place configured** - Connectors as programs making library calls with arbitrary outcomes; inversion of runs.
* **C78 No record gets into the text of an SQL statement** - The statement is quantified before the record.
* **C79 The Redis data base number defaults to 0** - Refuted; specification of integer settings proved equivalent to the model of Atoi.
* **C80 Init refuses unusable settings before contacting anything** - Case analysis of runs; missing settings refuted.
* **C81 Connection strings say what the settings say** - A reader for libpq strings as a state machine, a grammar for AMQP URIs; induction on values; refuted for special characters.
* **C82 Every record received reaches every storage** - Induction on the configuration and on the events of a run, composed with C44 and C69.
* **C83 Without a storage the records are printed** - Indented JSON printer proved against the grammar with white space; level condition refuted.
* **C84 The numbers of the Tarantool settings are used** - Arithmetic modulo 2^64; negative counts refuted.
* **C85 The settings file sets what it is documented to set** - Case analysis; documented key refuted.
* **C86 Which byte strings a subrecord decoder accepts, and as what** - A grammar of fields (SpecDec: `received`), one equivalence per type; forward and backward lemmas per kind of read.
* **C87 Which byte strings are record sets, and which records they hold** - A mutual inductive grammar (SpecReads: `reads_recs`, `reads_subs`); mutual induction one way, induction on nonzero bytes and length the other.
* **C88 Which frames a packet decoder accepts, and as what** - C10 and C11 combined with C87; determines every field of the packet.
* **C89 Package.ToBytes writes a packet as JSON** - The value of every struct as a relation between packets and JSON values (`SpecPkgJson`); the printer of C67 on top; EGTS+ members by the documented schema.
* **C90 A received packet can be written as JSON** - From C87/C88: the times read are within the years 2010 to 2146 and coordinates finite; left are the floats of EGTS+ records (refuted for NaN).
* **C91 The JSON of a packet tells it from every other packet** - Each relation of C89 determines its argument; refuted for strings that are not UTF-8 and unknown EGTS+ fields by frames with equal checksums.
* **C92 Floats in JSON texts are exact and as short as possible** - Reading as rounding of reals to nearest even (Flocq); the search for the digits keeps within the interval of reals that round to the float; no decimal with fewer digits lies in it.
* **C93 Which values a subrecord encoder accepts, and what it writes** - Layouts in plain arithmetic over any strings and numbers; the flag byte is the value of the concatenated binary numeral; for terminal identity the value that ParseUint returns with its error.
* **C94 What the record encoders do with any record** - An outcome relation that is total, and sound for the encoder, hence equivalent to it.
* **C95 What Package.Encode does with any packet** - As C94; the checksums by C06/C07's shift register, for which everything written is shown to be bytes.
* **C96 A time between two seconds is sent as the earlier second** - `Duration.Seconds` adds two float64; the sum reaches the next second exactly if the rest of the second is below half the distance of floats there, which no fraction in nanoseconds hits (10^9 has only nine factors 2).
* **C97 The sample sender sends the packets of its file** - the lines of a text as an inductive relation with all three line ends; the tool's functions meet it, and it is total.
* **C98 Everything the sample sender sends arrives** - a transition system of the tool, the two byte streams and the receiver's handler; invariant: the file is the packets handled, those on the way and those to be sent, and a waiting tool has an answer on the way or a packet not yet handled.
* **C99 Decoding depends on the bytes of the packet only** - from the closed form of Decode: its two slices end inside the packet.
* **C100 Damage to the body and its checksum together is detected** - linearity of the CRC: an error is missed exactly when the CRC of the errors
  in the body is the error in the checksum; parity, the period of the register, and for errors on both sides of the border a computation over all of at most 12 bits.
* **C101 Up to three wrong bits anywhere in a frame are detected** - one or three wrong bits by parity, two by the period of the register, in the
  header (whose checksum is decided first) or else behind it.
* **C102 The answers, byte for byte** - an explicit layout of the two packets the receiver builds, and a relation from frames to lists of writes
  that every run satisfies; by induction over the frames of a stream.
* **C103 What the receiver writes and saves is bounded by what it receives** - from C102, C11 and the grammar of C87: least sizes of records with an
  authorization or a position, where the last record of a packet may be filled up with zeros; two frames of 21 bytes reach the bounds.
* **C104 Command lines set what they say** - a grammar of command lines and of integers, shown equivalent to the loops of `flag` and `strconv` by
  induction; composed with C72 and C74.
* **C105 Numbers on the command line are decimal** - by induction on the digits; an octal number is smaller than the decimal one from 8 on.
* **C106 From the command line to the storage** - C104, C72, C62, C30 and C70 put together.
* **C107 Receivers do not answer each other for ever** - the bytes of C102 are cut where they were written (induction on the answers) and decode
  as C52 says; a complaint is a response, which is not answered (C53).
* **C108 A packet that comes again is confirmed again but not saved again** - the session is split at the second copy; C102 gives the same answer.
  Saving is by the same relation with another client and time, so the second half is refuted.
* **C109 Getters of EGTS+ messages** - one lemma on tables of tags and methods with distinct field numbers; its conditions are computed for each message.
* **C110 Names of the reasons for an EGTS+ record** - the two tables are the documented one; names begin with letters, numbers do not.
* **C111 The header fields after Decode, whatever it returns** - by the place where the content ends; a complete header is C88's case.
* **C112 The embedded schema is the documented one** - `SpecDescr` writes the documented schema as a FileDescriptorProto; the library's bytes are unpacked by computation.
* **C113 Reset empties a message** - from the getters of C109.

## What `Print Assumptions` lists

No axioms ("Closed under the global context") (88 theorems):

`C104_command_lines`, `C104_integers`, `C104_receiver`, `C105_decimal_integers`, `C105_leading_zeros_refuted`,
`C109_getters`, `C110_distinct`, `C110_names`, `C110_reading`, `C112_descriptor`, `C112_index`, `C112_registered`,
`C113_reset`, `C24_malformed_flags_refuted`, `C24_term_identity_round_trip`, `C25_module_data_round_trip`,
`C26_auth_info_round_trip`, `C27_dispatcher_identity_round_trip`, `C28_result_code_round_trip`, `C33_ext_pos_round_trip`,
`C34_ad_sensors_decode_layout`, `C34_ad_sensors_round_trip_partial`, `C34_ad_sensors_round_trip_refuted`,
`C35_counters_round_trip_partial`, `C35_counters_round_trip_refuted`, `C36_state_round_trip`,
`C37_large_sensor_number_refuted`, `C37_liquid_round_trip_partial`, `C38_abs_an_sens_round_trip`,
`C38_abs_cntr_round_trip`, `C39_malformed_flags_refused_refuted`, `C49_storage_fan_out`, `C49_success_means_all_stored`,
`C50_any_iteration_order`, `C50_storage_loading`, `C50_there_is_a_storage`, `C57_after_eof_partial`,
`C57_idle_connections_refuted`, `C57_no_deadline_refuted`, `C58_connections_are_served_partial`,
`C58_stop_ends_run_refuted`, `C63_settings_partial`, `C63_ttl_in_general`, `C63_ttl_refuted`, `C64_storage_round_trip`,
`C64_storage_wire_format`, `C65_decoded_record_is_kept`, `C66_decode_needs_required_fields`,
`C66_encode_needs_required_fields`, `C67_json_error`, `C77_nil_record`, `C78_statement_is_fixed`,
`C79_redis_default_refuted`, `C79_redis_init`, `C80_bad_settings_no_contact`, `C80_incomplete_settings_refuted`,
`C80_init_success`, `C80_nil_settings_refused`, `C81_connections`, `C81_empty_password_refuted`,
`C81_postgresql_string_partial`, `C81_postgresql_string_refuted`, `C81_rabbitmq_uri_partial`, `C81_rabbitmq_uri_refuted`,
`C82_start`, `C82_start_order_refuted`, `C83_printed_refuted`, `C84_negative_reconnects_refuted`,
`C84_numbers_in_general`, `C84_tarantool_numbers_partial`, `C85_documented_key_refuted`, `C85_settings_file_partial`,
`C86_abs_counter_accepts`, `C86_abs_sensor_accepts`, `C86_auth_info_accepts`, `C86_counters_accepts`,
`C86_dispatcher_accepts`, `C86_ext_position_accepts`, `C86_liquid_accepts`, `C86_module_data_accepts`,
`C86_result_code_accepts`, `C86_sensors_accepts`, `C86_state_accepts`, `C86_term_identity_accepts`, `C96_record_second`,
`C97_file_is_sent_partial`, `C97_tool_outcome`, `C97_unended_line_refuted`.

Axioms `ClassicalDedekindReals.sig_forall_dec`, `ClassicalDedekindReals.sig_not_dec`, `Classical_Prop.classic`, `FunctionalExtensionality.functional_extensionality_dep` (205 theorems):

`C01_appdata_packets_partial`, `C01_long_body_panics`, `C01_packet_round_trip_partial`, `C01_packet_round_trip_refuted`,
`C01_response_packets_partial`, `C02_wire_layout`, `C03_encrypted_round_trip`, `C04_decode_refuses_without_key`,
`C04_encode_refuses_without_key`, `C05_frame_data_length_partial`, `C05_frame_data_length_refuted`, `C05_long_bodies`,
`C06_header_corruption_partial`, `C06_header_corruption_refuted`, `C06_routing_bit_refuted`,
`C07_body_corruption_partial`, `C07_body_corruption_refuted`, `C08_no_panic_partial`, `C08_no_panic_refuted`,
`C08_panics_exactly`, `C08_panics_only_partial`, `C09_decoding_terminates`, `C09_packet_decoding_terminates`,
`C100_body_and_checksum_partial`, `C100_body_and_checksum_refuted`, `C101_header_and_checksum_partial`,
`C101_length_byte_refuted`, `C101_routed_header_refuted`, `C101_three_bits_partial`, `C102_answer_bytes`,
`C102_whole_connections`, `C103_bounded_by_traffic`, `C103_bounds_are_reached`, `C104_generator`, `C104_status_zero`,
`C104_what_is_sent`, `C106_from_command_line_to_storage`, `C107_answers_die_out`, `C107_without_logins`,
`C108_repeated_packets_are_confirmed_again`, `C108_repeated_packets_are_saved_again`, `C108_saved_once_refuted`,
`C10_body_sum_code_refuted`, `C10_every_outcome`, `C10_result_codes_partial`, `C111_half_numbers`,
`C111_header_fields_partial`, `C111_header_fields_refuted`, `C111_two_bytes`, `C11_accepted_frames`, `C12_encode_twice`,
`C13_header_only_packets_refuted`, `C14_record_set_round_trip`, `C14_records_of_known_subrecords`,
`C15_subrecord_set_refuted`, `C15_subrecord_set_round_trip_partial`, `C16_unknown_subrecords_in_records`,
`C16_unknown_subrecords_skipped`, `C17_automatic_type_partial`, `C17_automatic_type_refuted`, `C17_explicit_type`,
`C18_length_is_encoded_size`, `C19_length_fields_partial`, `C19_length_fields_refuted`, `C19_record_length_refuted`,
`C20_decode_then_encode_partial`, `C20_trailing_bytes_refuted`, `C20_unknown_subrecord_refuted`, `C21_prefixes_refuted`,
`C21_short_inputs_rejected_partial`, `C21_truncated_packets_partial`, `C22_packets_partial`,
`C22_receiver_independence_partial`, `C22_receiver_independence_refuted`, `C22_sets_append_refuted`,
`C23_pt_response_round_trip`, `C28_response_round_trip`, `C29_pos_data_round_trip_partial`,
`C29_pos_data_round_trip_refuted`, `C29_pos_data_travels_as`, `C30_coordinate_decode`,
`C30_coordinate_decode_encode_partial`, `C30_coordinate_decode_encode_refuted`, `C30_coordinate_decode_monotone`,
`C30_coordinate_encode_decode`, `C31_time_exact`, `C32_direction_refuted`, `C32_speed_and_flags_partial`,
`C39_malformed_flags_refused_partial`, `C39_malformed_packet_flags_partial`, `C40_framing_partial`,
`C40_framing_refuted`, `C40_long_frames`, `C41_rounds`, `C41_segmentation_independence`, `C42_all_runs`,
`C42_data_packets_are_acknowledged`, `C43_rejected_packets`, `C43_the_stream_goes_on`, `C44_nothing_else_saved`,
`C44_position_records_saved_partial`, `C44_position_records_saved_refuted`, `C44_records_after_a_confirmation_refuted`,
`C44_records_with_position_saved`, `C44_streams`, `C45_saved_data`, `C46_client_in_a_packet`,
`C46_client_on_a_connection`, `C47_crash_points`, `C47_save_before_acknowledge`, `C48_acknowledged_is_stored_partial`,
`C48_acknowledged_is_stored_refuted`, `C51_result_code_for_authentication`, `C52_result_code_packets_refuted`,
`C52_written_packets_partial`, `C53_no_ping_pong`, `C53_responses_are_not_answered`, `C54_any_stream`,
`C54_other_traffic_is_dropped`, `C55_crash_exactly`, `C55_empty_headers_refuted`, `C55_no_crash_partial`,
`C55_no_crash_refuted`, `C55_panicking_frames_refuted`, `C56_connections_are_isolated`, `C56_every_interleaving`,
`C59_packet_number_partial`, `C59_packet_number_refuted`, `C60_liquid_level_partial`, `C60_liquid_level_refuted`,
`C61_hemisphere_refuted`, `C62_generator_and_receiver`, `C64_egtsplus_travels`, `C65_received_egtsplus_travels`,
`C67_json_text`, `C67_saved_records_have_json`, `C68_json_is_read_back`, `C68_json_loses_nothing`,
`C68_json_loses_nothing_refuted`, `C68_saved_records_told_apart`, `C69_saved_values`, `C70_success_is_deserved`,
`C70_well_formed_answers`, `C71_requested_time_refuted`, `C72_exit_status_refuted`, `C73_default_timeout_refuted`,
`C73_timeout_given`, `C74_identifier_range_refuted`, `C74_what_is_sent`, `C74_when_a_packet_is_sent`,
`C75_answers_in_pieces_refuted`, `C76_no_panic_refuted`, `C77_one_request`, `C82_every_record_to_every_storage_partial`,
`C82_fan_out`, `C82_working_storages_refuted`, `C83_log_text`, `C83_printed_partial`, `C86_position_accepts`,
`C86_response_accepts`, `C87_records_accepts`, `C87_response_body_accepts`, `C87_subrecords_accepts`,
`C88_packet_accepts`, `C88_readable_bodies`, `C89_packet_json`, `C89_packet_json_is_read_back`,
`C90_every_received_packet_has_a_text_refuted`, `C90_packets_without_plus`, `C90_received_packet_json`,
`C91_any_names_refuted`, `C91_packet_json_loses_nothing`, `C91_received_packets_told_apart`,
`C91_unknown_fields_refuted`, `C92_float32_is_read_back`, `C92_float32_notation`, `C92_float32_shortest`,
`C92_float32_texts_differ`, `C92_float64_is_read_back`, `C92_float64_notation`, `C92_float64_shortest`,
`C92_float64_texts_differ`, `C93_flags_can_shift`, `C93_subrecord_encoding`, `C93_subrecord_no_panic`,
`C93_term_identity_never_refused`, `C94_nil_data_panics`, `C94_no_panic_with_data`, `C94_record_outcome`,
`C94_response_outcome`, `C94_subrecord_outcome`, `C95_packet_always_some_outcome`, `C95_packet_bytes`,
`C95_packet_outcome`, `C96_first_half_year`, `C96_position_second`, `C96_position_second_partial`,
`C96_same_second_refuted`, `C98_everything_arrives_partial`, `C98_in_order`, `C98_response_packet_refuted`,
`C99_bytes_after_partial`, `C99_bytes_after_refuted`, `C99_memory_behind_partial`, `C99_memory_behind_refuted`.
