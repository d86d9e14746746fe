(** What every property theorem rests on (part 4 of 4). *)
From Verif Require Import PropAnswer PropBound PropConc PropConn PropConnSrv PropCrc PropDamage PropDec PropDescr PropEnc PropEnd PropFlags PropGen PropGenMain PropHead PropJson PropMore PropNum PropOutcome PropPb PropPkg PropPkgEx PropPkgJson PropPlus PropQuiet PropRec PropSend PropSrv PropSrvEx PropSrvMore PropStore PropSub PropTime PropWhole.

Print Assumptions C01_long_body_panics.
Print Assumptions C04_encode_refuses_without_key.
Print Assumptions C05_frame_data_length_refuted.
Print Assumptions C07_body_corruption_partial.
Print Assumptions C08_no_panic_refuted.
Print Assumptions C10_result_codes_partial.
Print Assumptions C100_body_and_checksum_refuted.
Print Assumptions C101_routed_header_refuted.
Print Assumptions C103_bounds_are_reached.
Print Assumptions C104_status_zero.
Print Assumptions C105_leading_zeros_refuted.
Print Assumptions C108_repeated_packets_are_confirmed_again.
Print Assumptions C11_accepted_frames.
Print Assumptions C111_header_fields_partial.
Print Assumptions C112_descriptor.
Print Assumptions C12_encode_twice.
Print Assumptions C15_subrecord_set_round_trip_partial.
Print Assumptions C17_automatic_type_partial.
Print Assumptions C19_length_fields_partial.
Print Assumptions C20_unknown_subrecord_refuted.
Print Assumptions C21_prefixes_refuted.
Print Assumptions C22_receiver_independence_refuted.
Print Assumptions C25_module_data_round_trip.
Print Assumptions C28_result_code_round_trip.
Print Assumptions C30_coordinate_decode.
Print Assumptions C30_coordinate_decode_encode_refuted.
Print Assumptions C33_ext_pos_round_trip.
Print Assumptions C35_counters_round_trip_partial.
Print Assumptions C37_large_sensor_number_refuted.
Print Assumptions C39_malformed_flags_refused_refuted.
Print Assumptions C40_framing_refuted.
Print Assumptions C42_all_runs.
Print Assumptions C44_nothing_else_saved.
Print Assumptions C44_position_records_saved_refuted.
Print Assumptions C47_save_before_acknowledge.
Print Assumptions C49_storage_fan_out.
Print Assumptions C50_there_is_a_storage.
Print Assumptions C53_responses_are_not_answered.
Print Assumptions C55_no_crash_partial.
Print Assumptions C55_crash_exactly.
Print Assumptions C57_no_deadline_refuted.
Print Assumptions C59_packet_number_partial.
Print Assumptions C61_hemisphere_refuted.
Print Assumptions C63_ttl_in_general.
Print Assumptions C65_decoded_record_is_kept.
Print Assumptions C67_json_text.
Print Assumptions C68_json_loses_nothing.
Print Assumptions C70_well_formed_answers.
Print Assumptions C73_timeout_given.
Print Assumptions C74_identifier_range_refuted.
Print Assumptions C77_nil_record.
Print Assumptions C80_nil_settings_refused.
Print Assumptions C81_postgresql_string_partial.
Print Assumptions C81_rabbitmq_uri_refuted.
Print Assumptions C82_every_record_to_every_storage_partial.
Print Assumptions C83_printed_partial.
Print Assumptions C84_negative_reconnects_refuted.
Print Assumptions C86_module_data_accepts.
Print Assumptions C86_position_accepts.
Print Assumptions C86_state_accepts.
Print Assumptions C86_response_accepts.
Print Assumptions C88_readable_bodies.
Print Assumptions C90_received_packet_json.
Print Assumptions C91_received_packets_told_apart.
Print Assumptions C92_float32_is_read_back.
Print Assumptions C92_float32_shortest.
Print Assumptions C93_subrecord_no_panic.
Print Assumptions C94_record_outcome.
Print Assumptions C95_packet_outcome.
Print Assumptions C96_record_second.
Print Assumptions C97_tool_outcome.
Print Assumptions C98_everything_arrives_partial.
Print Assumptions C99_memory_behind_refuted.
