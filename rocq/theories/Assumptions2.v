(** What every property theorem rests on (part 2 of 4). *)
From Verif Require Import PropAnswer PropBound PropConc PropConn PropConnSrv PropCrc PropDamage PropDec PropDescr PropEnc PropEnd PropFlags PropGen PropGenMain PropHead PropJson PropMore PropNum PropOutcome PropPb PropPkg PropPkgEx PropPkgJson PropPlus PropQuiet PropRec PropSend PropSrv PropSrvEx PropSrvMore PropStore PropSub PropTime PropWhole.

Print Assumptions C01_appdata_packets_partial.
Print Assumptions C02_wire_layout.
Print Assumptions C05_frame_data_length_partial.
Print Assumptions C06_routing_bit_refuted.
Print Assumptions C08_panics_only_partial.
Print Assumptions C09_decoding_terminates.
Print Assumptions C10_every_outcome.
Print Assumptions C101_three_bits_partial.
Print Assumptions C102_whole_connections.
Print Assumptions C104_integers.
Print Assumptions C104_receiver.
Print Assumptions C107_answers_die_out.
Print Assumptions C108_saved_once_refuted.
Print Assumptions C110_distinct.
Print Assumptions C111_half_numbers.
Print Assumptions C112_registered.
Print Assumptions C14_record_set_round_trip.
Print Assumptions C16_unknown_subrecords_skipped.
Print Assumptions C17_automatic_type_refuted.
Print Assumptions C19_record_length_refuted.
Print Assumptions C21_truncated_packets_partial.
Print Assumptions C22_sets_append_refuted.
Print Assumptions C24_term_identity_round_trip.
Print Assumptions C27_dispatcher_identity_round_trip.
Print Assumptions C29_pos_data_round_trip_partial.
Print Assumptions C30_coordinate_encode_decode.
Print Assumptions C32_speed_and_flags_partial.
Print Assumptions C34_ad_sensors_decode_layout.
Print Assumptions C36_state_round_trip.
Print Assumptions C38_abs_an_sens_round_trip.
Print Assumptions C40_framing_partial.
Print Assumptions C41_rounds.
Print Assumptions C43_the_stream_goes_on.
Print Assumptions C44_streams.
Print Assumptions C46_client_in_a_packet.
Print Assumptions C48_acknowledged_is_stored_refuted.
Print Assumptions C50_storage_loading.
Print Assumptions C52_written_packets_partial.
Print Assumptions C54_other_traffic_is_dropped.
Print Assumptions C55_empty_headers_refuted.
Print Assumptions C56_every_interleaving.
Print Assumptions C58_stop_ends_run_refuted.
Print Assumptions C60_liquid_level_partial.
Print Assumptions C63_settings_partial.
Print Assumptions C64_storage_wire_format.
Print Assumptions C66_encode_needs_required_fields.
Print Assumptions C67_saved_records_have_json.
Print Assumptions C68_saved_records_told_apart.
Print Assumptions C71_requested_time_refuted.
Print Assumptions C74_when_a_packet_is_sent.
Print Assumptions C76_no_panic_refuted.
Print Assumptions C79_redis_default_refuted.
Print Assumptions C80_init_success.
Print Assumptions C81_postgresql_string_refuted.
Print Assumptions C82_start.
Print Assumptions C82_start_order_refuted.
Print Assumptions C84_tarantool_numbers_partial.
Print Assumptions C85_documented_key_refuted.
Print Assumptions C86_auth_info_accepts.
Print Assumptions C86_sensors_accepts.
Print Assumptions C86_abs_counter_accepts.
Print Assumptions C87_subrecords_accepts.
Print Assumptions C89_packet_json.
Print Assumptions C90_every_received_packet_has_a_text_refuted.
Print Assumptions C91_unknown_fields_refuted.
Print Assumptions C92_float32_texts_differ.
Print Assumptions C92_float32_notation.
Print Assumptions C93_flags_can_shift.
Print Assumptions C94_no_panic_with_data.
Print Assumptions C95_packet_bytes.
Print Assumptions C96_first_half_year.
Print Assumptions C97_unended_line_refuted.
Print Assumptions C99_memory_behind_partial.
