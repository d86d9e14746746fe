(** What every property theorem rests on (part 1 of 4). *)
From Verif Require Import PropAnswer PropBound PropConc PropConn PropConnSrv PropCrc PropDamage PropDec PropDescr PropEnc PropEnd PropFlags PropGen PropGenMain PropHead PropJson PropMore PropNum PropOutcome PropPb PropPkg PropPkgEx PropPkgJson PropPlus PropQuiet PropRec PropSend PropSrv PropSrvEx PropSrvMore PropStore PropSub PropTime PropWhole.

Print Assumptions C01_packet_round_trip_partial.
Print Assumptions C01_packet_round_trip_refuted.
Print Assumptions C04_decode_refuses_without_key.
Print Assumptions C06_header_corruption_partial.
Print Assumptions C07_body_corruption_refuted.
Print Assumptions C08_panics_exactly.
Print Assumptions C10_body_sum_code_refuted.
Print Assumptions C101_header_and_checksum_partial.
Print Assumptions C102_answer_bytes.
Print Assumptions C104_command_lines.
Print Assumptions C104_what_is_sent.
Print Assumptions C106_from_command_line_to_storage.
Print Assumptions C108_repeated_packets_are_saved_again.
Print Assumptions C110_names.
Print Assumptions C111_two_bytes.
Print Assumptions C112_index.
Print Assumptions C13_header_only_packets_refuted.
Print Assumptions C15_subrecord_set_refuted.
Print Assumptions C17_explicit_type.
Print Assumptions C19_length_fields_refuted.
Print Assumptions C20_trailing_bytes_refuted.
Print Assumptions C22_receiver_independence_partial.
Print Assumptions C23_pt_response_round_trip.
Print Assumptions C26_auth_info_round_trip.
Print Assumptions C29_pos_data_travels_as.
Print Assumptions C30_coordinate_decode_monotone.
Print Assumptions C31_time_exact.
Print Assumptions C34_ad_sensors_round_trip_partial.
Print Assumptions C35_counters_round_trip_refuted.
Print Assumptions C38_abs_cntr_round_trip.
Print Assumptions C39_malformed_packet_flags_partial.
Print Assumptions C41_segmentation_independence.
Print Assumptions C43_rejected_packets.
Print Assumptions C44_records_with_position_saved.
Print Assumptions C45_saved_data.
Print Assumptions C47_crash_points.
Print Assumptions C49_success_means_all_stored.
Print Assumptions C51_result_code_for_authentication.
Print Assumptions C53_no_ping_pong.
Print Assumptions C55_panicking_frames_refuted.
Print Assumptions C56_connections_are_isolated.
Print Assumptions C57_after_eof_partial.
Print Assumptions C59_packet_number_refuted.
Print Assumptions C62_generator_and_receiver.
Print Assumptions C64_storage_round_trip.
Print Assumptions C65_received_egtsplus_travels.
Print Assumptions C67_json_error.
Print Assumptions C68_json_loses_nothing_refuted.
Print Assumptions C70_success_is_deserved.
Print Assumptions C73_default_timeout_refuted.
Print Assumptions C75_answers_in_pieces_refuted.
Print Assumptions C78_statement_is_fixed.
Print Assumptions C80_bad_settings_no_contact.
Print Assumptions C81_empty_password_refuted.
Print Assumptions C81_connections.
Print Assumptions C82_working_storages_refuted.
Print Assumptions C83_printed_refuted.
Print Assumptions C85_settings_file_partial.
Print Assumptions C86_dispatcher_accepts.
Print Assumptions C86_ext_position_accepts.
Print Assumptions C86_liquid_accepts.
Print Assumptions C87_records_accepts.
Print Assumptions C88_packet_accepts.
Print Assumptions C90_packets_without_plus.
Print Assumptions C91_any_names_refuted.
Print Assumptions C92_float64_texts_differ.
Print Assumptions C92_float64_notation.
Print Assumptions C93_term_identity_never_refused.
Print Assumptions C94_response_outcome.
Print Assumptions C95_packet_always_some_outcome.
Print Assumptions C96_position_second_partial.
Print Assumptions C97_file_is_sent_partial.
Print Assumptions C98_response_packet_refuted.
Print Assumptions C99_bytes_after_refuted.
