(** What every property theorem rests on (part 3 of 4). *)
From Verif Require Import PropAnswer PropBound PropConc PropConn PropConnSrv PropCrc PropDamage PropDec PropDescr PropEnc PropEnd PropFlags PropGen PropGenMain PropHead PropJson PropMore PropNum PropOutcome PropPb PropPkg PropPkgEx PropPkgJson PropPlus PropQuiet PropRec PropSend PropSrv PropSrvEx PropSrvMore PropStore PropSub PropTime PropWhole.

Print Assumptions C01_response_packets_partial.
Print Assumptions C03_encrypted_round_trip.
Print Assumptions C05_long_bodies.
Print Assumptions C06_header_corruption_refuted.
Print Assumptions C08_no_panic_partial.
Print Assumptions C09_packet_decoding_terminates.
Print Assumptions C100_body_and_checksum_partial.
Print Assumptions C101_length_byte_refuted.
Print Assumptions C103_bounded_by_traffic.
Print Assumptions C104_generator.
Print Assumptions C105_decimal_integers.
Print Assumptions C107_without_logins.
Print Assumptions C109_getters.
Print Assumptions C110_reading.
Print Assumptions C111_header_fields_refuted.
Print Assumptions C113_reset.
Print Assumptions C14_records_of_known_subrecords.
Print Assumptions C16_unknown_subrecords_in_records.
Print Assumptions C18_length_is_encoded_size.
Print Assumptions C20_decode_then_encode_partial.
Print Assumptions C21_short_inputs_rejected_partial.
Print Assumptions C22_packets_partial.
Print Assumptions C24_malformed_flags_refuted.
Print Assumptions C28_response_round_trip.
Print Assumptions C29_pos_data_round_trip_refuted.
Print Assumptions C30_coordinate_decode_encode_partial.
Print Assumptions C32_direction_refuted.
Print Assumptions C34_ad_sensors_round_trip_refuted.
Print Assumptions C37_liquid_round_trip_partial.
Print Assumptions C39_malformed_flags_refused_partial.
Print Assumptions C40_long_frames.
Print Assumptions C42_data_packets_are_acknowledged.
Print Assumptions C44_position_records_saved_partial.
Print Assumptions C44_records_after_a_confirmation_refuted.
Print Assumptions C46_client_on_a_connection.
Print Assumptions C48_acknowledged_is_stored_partial.
Print Assumptions C50_any_iteration_order.
Print Assumptions C52_result_code_packets_refuted.
Print Assumptions C54_any_stream.
Print Assumptions C55_no_crash_refuted.
Print Assumptions C57_idle_connections_refuted.
Print Assumptions C58_connections_are_served_partial.
Print Assumptions C60_liquid_level_refuted.
Print Assumptions C63_ttl_refuted.
Print Assumptions C64_egtsplus_travels.
Print Assumptions C66_decode_needs_required_fields.
Print Assumptions C68_json_is_read_back.
Print Assumptions C69_saved_values.
Print Assumptions C72_exit_status_refuted.
Print Assumptions C74_what_is_sent.
Print Assumptions C77_one_request.
Print Assumptions C79_redis_init.
Print Assumptions C80_incomplete_settings_refuted.
Print Assumptions C81_rabbitmq_uri_partial.
Print Assumptions C82_fan_out.
Print Assumptions C83_log_text.
Print Assumptions C84_numbers_in_general.
Print Assumptions C86_term_identity_accepts.
Print Assumptions C86_result_code_accepts.
Print Assumptions C86_counters_accepts.
Print Assumptions C86_abs_sensor_accepts.
Print Assumptions C87_response_body_accepts.
Print Assumptions C89_packet_json_is_read_back.
Print Assumptions C91_packet_json_loses_nothing.
Print Assumptions C92_float64_is_read_back.
Print Assumptions C92_float64_shortest.
Print Assumptions C93_subrecord_encoding.
Print Assumptions C94_subrecord_outcome.
Print Assumptions C94_nil_data_panics.
Print Assumptions C96_position_second.
Print Assumptions C96_same_second_refuted.
Print Assumptions C98_in_order.
Print Assumptions C99_bytes_after_partial.
