# c(property, status, "theorem names", note)
c("C01", "proved", "chunking_independent parser_is_scanner library_chunking_independent library_dispatches")
c("C02", "proved", "frames_are_on_the_wire frames_are_on_the_wire_bounded frames_are_on_the_wire_fixed frames_on_the_wire_fixed_early_drop_refuted library_frames_are_on_the_wire",
  "Vec: any history; buffers of capacity >= 5: drained histories; the counterexample shows that early drops break it for fixed buffers")
c("C03", "proved", "clean_stream_complete")
c("C04", "proved", "resynchronisation resynchronisation_clean_prefix library_resynchronises")
c("C05", "proved", "checksum_errors_justified checksum_error_resumes_two_bytes_later")
c("C06", "proved", "parser_never_panics parser_never_panics_vec parser_never_panics_vec_drained parser_never_panics_fixed library_never_panics_vec library_never_panics_fixed")
c("C07", "proved", "progress draining_terminates none_is_final")
c("C08", "proved", "error_surface error_surface_vec library_error_surface every_frame_is_delivered")
c("C09", "proved", "retained_bounded oversized_header_dropped library_retains_little")
c("C10", "proved", "large_fixed_buffer_is_vec large_fixed_buffer_8182_refuted library_large_fixed_buffer_is_vec")
c("C11", "proved", "frames_that_fit_are_delivered fixed_buffer_is_vec_when_headers_fit frames_that_do_not_fit_are_refused library_fixed_buffer_delivers documented_buffer_size documented_buffer_size_minus_one documented_buffer_size_minus_two_refused")
c("C12", "proved", "out_of_memory_justified error_surface_vec")
c("C13", "proved", "no_byte_lost no_byte_lost_capacity_4_refuted library_no_byte_lost")
c("C14", "proved", "early_drop_loses_nothing early_drop_fixed_refuted library_early_drop_loses_nothing")
c("C15", "proved", "buffer_len_reports_pending buffer_empty_at_frame_boundary")
c("C16", "proved", "fixed_linear_buffer_is_fifo fifo_capacity fixed_linear_buffer_index fixed_linear_buffer_index_refuted")
c("C17", "proved", "buffers_interchangeable parser_never_panics frames_are_on_the_wire_bounded vec_is_lawful fixed_linear_buffer_is_lawful queue_is_lawful")
c("C18", "proved", "two_buffer_view two_buffer_view_runs")
c("C19", "proved", "checksum_value checksum_weights checksum_in_pieces checksum_pieces_agree_with_ubx_checksum")
c("C20", "proved", "single_byte_change_detected payload_swap_detected class_id_swap_detected checksum_change_detected two_byte_change_detected_refuted")
c("C57", "proved", "interleaved_stream_complete")
c("C21", "proved", "builder_total builder_emits_frame builder_fails_only_in_conversions builder_nan_panics_refuted",
  "for every packet with a builder of fixed size and all values but NaN in a scaled field of a signed raw type, for which the builder panics")
c("C22", "proved", "emission_ways_agree variable_builder_emits_frame cfg_val_set_nonempty_refuted cfg_val_set_extend_to")
c("C23", "proved", "builder_places_fields", "for any declaration with sized fields, not only those of the library")
c("C24", "proved", "build_parse_read", "any sequence of packets, any chunks")
c("C25", "proved", "poll_request_round_trip poll_request_for_type")
c("C26", "proved", "cfg_val_set_frame cfg_val_set_extend_to cfg_val_set_nonempty_refuted cfg_val_set_length_truncated_refuted")
c("C27", "proved", "max_payload_len_admits_all", "MgaGpsEPH is shadowed by MgaGpsEph, which has the same class, id and length (C28)")
c("C28", "proved", "dispatch_total dispatch_exact dispatch_unknown")
c("C29", "proved", "getters_safe uart_mode_getter_refuted uart_mode_getter uart_mode_decodes tim_tm2_time_base_refuted tim_tm2_time_base_panics_refuted")
c("C30", "proved", "validators_exact length_validation every_frame_is_delivered")
c("C37", "proved", "cfg_prt_by_port")
c("C38", "proved", "build_parse_read receive_and_send_missing_refuted mga_gps_EPH_unreachable_refuted")
c("C55", "proved", "macro_accepts scalar_types macro_length macro_round_trip macro_validator macro_getters macro_sized_after_counted_refuted macro_rest_after_counted_refuted macro_validator_total_refuted",
  "fixed-length declarations: all of them; variable ones: those whose variable part is one trailing field, or trailing counted fields; the refutations show that the claim fails for the other declarations the macro accepts")
c("C56", "proved", "create_packet_appends create_packet_error emission_ways_agree")
c("C31", "proved", "enum_declared enum_undeclared enum_round_trip library_enums checked_enum_field")
c("C32", "proved", "flags_keep_all_bits flags_declared library_flags")
c("C33", "proved", "nav_sat_accepts nav_sat_groups nav_sat_num_svs_refuted rxm_rawx_accepts rxm_rawx_groups rxm_rawx_num_meas_refuted rxm_sfrbx_accepts rxm_sfrbx_words rxm_sfrbx_num_words_refuted esf_raw_accepts esf_raw_items esf_meas_items mon_ver_strings",
  "the refutations: the declared counts of NAV-SAT, RXM-RAWX and RXM-SFRBX are not compared with the number of groups")
c("C34", "proved", "mon_ver_accepts mon_ver_strings has_text_unique")
c("C35", "proved", "inf_message")
c("C36", "proved", "esf_meas_accepts esf_meas_items esf_meas_trailing_words_refuted", "words after the counted ones are accepted and ignored")
c("C49", "proved", "itfm_config_encodes itfm_config_defaults itfm_config_decodes itfm_config_recode itfm_config_round_trip_refuted itfm_config2_encodes itfm_config2_decodes itfm_antenna_lost_refuted")
c("C50", "proved", "uart_mode_encodes uart_mode_round_trip uart_mode_decodes uart_mode_getter")
c("C51", "proved", "nav_sat_sv_flags_bits nav_sat_sv_flags_codes fix_status_bits tim_tp_flags_bits tim_tp_ref_info_codes tim_tm2_flags_bits tim_tm2_time_base_refuted")
c("C39", "proved", "cfg_round_trip cfg_wire_injective")
c("C40", "proved", "cfg_encoding")
c("C41", "proved", "cfg_keys_distinct cfg_keys_announce_sizes")
c("C42", "proved", "cfg_iteration cfg_iter_of_list")
c("C43", "proved", "cfg_parse_exact cfg_parse_panics")
c("C58", "proved", "cfg_key_parts cfg_item_id_refuted", "the size and group accessors are exact; item_id() returns the low 8 of 12 bits, so the expectation is refuted by two items of the table")
c("C45", "proved", "float_formats getter_accurate scaled_round_trip")
c("C46", "proved", "scale_back_finite scale_back_formula scale_back_infinite scale_back_nan_refuted scale_back_wide_refuted", "for NaN the signed conversions panic and the unsigned ones depend on the sign of the NaN")
c("C59", "proved", "recode recode_refuted", "the refutation shows one of the two exceptions, CFG-PRT for UARTs")
c("C48", "proved", "set_position_exact set_position_accurate set_position_round_trip_refuted set_time_exact set_time_injective set_time_day_lost_refuted set_time_late_refuted", "u32 arithmetic of set_time is modelled with overflow checks (a debug build); a release build would wrap around for years before 2000")
c("C54", "proved", "ack_matches_exactly nak_matches_exactly ack_of_other_message")
c("C60", "proved", "set_rate_single_port set_rate_all_ports reset_masks")
c("C44", "proved", "datetime_exact instant_injective", "chrono is modelled by its documented behaviour")
c("C47", "proved", "position_pos_llh position_pvt velocity_pvt velocity_vel_ned position_hp_pos_llh position_hp_pos_ecef hp_altitude_refuted ecef_metres_refuted", "the values are characterised for all packets; for the high precision altitude and the ECEF coordinates they are not the documented ones")
c("C52", "proved", "serialize_entries serialize_group_entries serialize_unknown serialize_keys serialize_keys_refuted debug_total serialize_uart_refuted", "the serde backend is an arbitrary record of operations which may fail; how a backend renders values is not modelled")
c("C53", "proved", "configure_writes configure_asked_for configure_parity_refuted configure_baud_refuted open_settings_exchange_parity", "clap is not modelled: the options are its results")
c("C61", "proved", "update_delivers device_reads_stream device_error_panics wait_for_ack_exact", "the serial port is an arbitrary sequence of read outcomes")
c("C62", "proved", "documented_getters documented_blocks documented_complete documented_builders documented_builders_complete documented_deviations_refuted nav_status_flags2_refuted rcvr_mode_refuted time_grid_refuted antenna_setting_refuted", "the table of documented layouts is SpecInterface.v; 34 fields, one state byte and three sets of constants deviate from it, each with a refutation")
c("C63", "proved", "header_exact header_order header_total duplicate_flags_refuted", "syn is modelled by its documented behaviour (Tokens.v, Syntax.v)")
c("C64", "proved", "options_exact options_total options_order functions_need_type field_exact two_attributes_refuted", "types, paths and expressions are token lists")
c("C65", "proved", "packet_exact packet_macro_exact packet_macro_panics packet_macro_total_refuted accepted_description", "the macros are not total; the panics are characterised")
c("C66", "proved", "enum_exact enum_panics enum_total_refuted bitflags_exact bitflags_panics bitflags_total_refuted recv_list_exact file_exact", "the macros are not total; the panics are characterised")
c("C67", "proved", "source_accepted source_enums source_flags source_recv_packets source_send_packets source_recv_table source_cfg_keys source_optional", "the text of the two files is copied verbatim into SourcePackets.v and SourceCfg.v by tools/gen_source.py")
c("C68", "proved", "session_order session_prompt session_shows session_ends session_survives session_survives_refuted", "lines on the terminal are the values put into them; the text is not modelled")
c("C69", "proved", "templates_verbatim expansion_accepts expansion_is_code test_recv_simple test_recv_dyn_len test_send_simple test_upgrade_enum test_extend_bitflags test_define_recv_packets", "the comparison with the expected outputs is up to a trailing comma and a doubled semicolon, which rustfmt removes in the project's tests too")
c("C70", "proved", "code_getters code_validate code_as_bytes code_match_packet code_class_and_msg_id code_max_payload_len code_into_packet_bytes code_create_packet code_extend_to code_enum code_flag code_flags code_flags_fns code_consts", "the code for Debug and serde: C72; the meaning of Rust is Rust.v")
c("C71", "proved", "library_getter_code library_validate_code library_dispatch_code library_builder_code library_enum_code library_flag_code", "which definition of the model stands for a name of the library is SpecLib.v")
c("C72", "proved", "model_serialize model_debug code_debug code_serialize_fields code_serialize code_packet_serializer code_union_serialize code_enum_serialize code_flags_serialize library_show_code library_show_unknown", "formatter and serializer are any; how a value writes itself, and the derived Serialize of the unknown packet, are not generated by the macros and are taken as in C52")
c("C73", "proved", "default_builders default_types default_frame same_value_same_bytes unset_fields default_read_back default_nav_x5_version_refuted", "the derived Default of structs, enums and bit flags is modelled by its documentation; which types derive it is read from the source text")
c("C74", "proved", "decimal_text hexadecimal_text parser_errors_distinct parser_errors_distinct_refuted writer_errors_distinct datetime_errors_distinct validate_error library_validate_error", "{} and {:x} of integers are modelled by their documentation; the refutation shows that the condition on names is needed")
c("C75", "proved", "serialized_ref serialized_packet serialized_lossless serialized_lossless_refuted", "the values of fields are those of the declarations read from the text of packets.rs; derived Serialize is modelled by its documentation; the refutation gives, for each of the packets excepted, two payloads which are written the same way")
c("C76", "proved", "readable_declared derived_round_trip readable_round_trip readable_distinct coded_refused readable_round_trip_refuted struct_read struct_order readable_typed values_read_back flags_read_back itfm2_not_read_refuted", "the types are read from the texts of packets.rs and types.rs; the derived implementations of serde are modelled by their documentation, for a format which keeps the kinds of the data model apart; the refutations are the two types whose form is never read back")
c("C77", "proved", "text_functions text_vec_buffer text_fixed_buffer text_dual_buffer text_parser text_ubx_packets text_histories text_drained_histories text_is_scanner", "the interpreter of Exec.v gives the meaning of the constructs and library functions used in the two files; it returns None for anything else, so an equation shows that nothing else was met")
c("C78", "proved", "text_packets_read text_fix_status text_nav_sat_flags text_debug text_itfm_words text_itfm_config text_uart_mode text_tim_flags text_strings text_offset_iterators text_chunk_iterators text_cfg_val_iter text_esf_meas text_modes text_rates text_acks text_predefined_masks", "CfgValIter::new is modelled but not executed from the text; the setters of AID-INI and the conversions through floats are in C81; Debug is a list of names and values")
c("C79", "proved", "text_cfg_functions text_key_id text_storage_size text_cfg_constants text_cfg_len text_cfg_bytes text_cfg_extend text_cfg_write text_cfg_parse", "the macro expander (MacroRules.v) is a model of rustc's; u64 and i16 are their bits in the interpreter")
c("C80", "proved", "text_chunking_independent text_frames_delivered text_fixed_buffer_delivers text_frames_are_on_the_wire text_never_panics text_request_round_trip text_cfg_round_trip", "the dispatcher match_packet and the validators it calls are generated code: here they are the model of C28 and C70; the interpreter's bounds are chosen large enough for each execution")
c("C81", "proved", "text_types_read text_positions text_datetime text_aid_ini_setters text_scale_back", "the interpreter of SpecExecTypes.v gives the meaning of the constructs, of IEEE 754 operations (SpecFloat) and of chrono; it returns None for anything else. text_datetime is for payloads of 92 bytes, the only ones that are received as NAV-PVT")
