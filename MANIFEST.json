{
 "claims": [
  {
   "property": "C01",
   "status": "proved",
   "theorems": [
    "C01_integer_codecs_exact",
    "C01_only_integers"
   ],
   "note": ""
  },
  {
   "property": "C02",
   "status": "partial",
   "theorems": [
    "C02_string_roundtrip",
    "C02_string_cut",
    "C02_string_rejects_non_latin1",
    "C02_empty_string_refuted"
   ],
   "note": "Proved for every non-empty string; the empty string comes back as NUL (C02_empty_string_refuted), which read reports as None."
  },
  {
   "property": "C03",
   "status": "partial",
   "theorems": [
    "C03_string_size_refuted",
    "C03_string_size_partial"
   ],
   "note": "REFUTED by the code for fields under 16 bytes (one byte too many, util.py:148-150); exact size proved from 16 bytes on."
  },
  {
   "property": "C04",
   "status": "proved",
   "theorems": [
    "C04_ipv6_roundtrip",
    "C04_ipv6_field_size"
   ],
   "note": ""
  },
  {
   "property": "C05",
   "status": "proved",
   "theorems": [
    "C05_eui48_roundtrip",
    "C05_eui48_other_length"
   ],
   "note": ""
  },
  {
   "property": "C06",
   "status": "partial",
   "theorems": [
    "C06_every_type_writable_refuted",
    "C06_integer_types_writable_partial",
    "C06_ipv6_writable_partial",
    "C06_long_string_writable_partial",
    "C06_float_writable_partial",
    "C06_register_size_partial"
   ],
   "note": "REFUTED by the code for eui48 (eui48_to_data takes one argument, util.py:153) and short strings; proved for all other types."
  },
  {
   "property": "C07",
   "status": "proved",
   "theorems": [
    "C07_float32_bit_exact",
    "C07_float32_value",
    "C07_double_bit_exact"
   ],
   "note": ""
  },
  {
   "property": "C08",
   "status": "partial",
   "theorems": [
    "C08_unimplemented_integers",
    "C08_unimplemented_ipv6",
    "C08_unimplemented_float",
    "C08_string_partial",
    "C08_string_refuted",
    "C08_eui48_refuted",
    "C08_eui48_partial"
   ],
   "note": "Proved for the 16/32-bit and int64 integer types, ipv6addr and float32. REFUTED for string (first NUL suffices) and eui48 (all-zero reported None); uint64/acc64 under C09."
  },
  {
   "property": "C09",
   "status": "partial",
   "theorems": [
    "C09_uint64_refuted",
    "C09_uint64_partial"
   ],
   "note": "REFUTED by the code (suns.py:184-185 use the signed codec); proved for values below 2^63."
  },
  {
   "property": "C10",
   "status": "proved",
   "theorems": [
    "C10_int_text_canonical",
    "C10_int_text_roundtrip",
    "C10_int_text_grammar",
    "C10_int_text_rejects"
   ],
   "note": ""
  },
  {
   "property": "C11",
   "status": "proved",
   "theorems": [
    "C11_reassign_keeps_registers",
    "C11_reassign_unscaled"
   ],
   "note": ""
  },
  {
   "property": "C12",
   "status": "proved",
   "theorems": [
    "C12_assign_stores_nearest"
   ],
   "note": ""
  },
  {
   "property": "C13",
   "status": "partial",
   "theorems": [
    "C13_reassign_64bit_refuted"
   ],
   "note": "REFUTED by the code for 64-bit points (value goes through a float: 2^53+1 is altered); proved up to 2^50 under C11."
  },
  {
   "property": "C14",
   "status": "proved",
   "theorems": [
    "C14_blocks_ascending",
    "C14_new_map_ascending",
    "C14_overlap_rejected"
   ],
   "note": ""
  },
  {
   "property": "C15",
   "status": "proved",
   "theorems": [
    "C15_read_exact",
    "C15_length",
    "C15_function_mismatch"
   ],
   "note": ""
  },
  {
   "property": "C16",
   "status": "proved",
   "theorems": [
    "C16_write_exact",
    "C16_fitting_write_succeeds",
    "C16_history"
   ],
   "note": ""
  },
  {
   "property": "C17",
   "status": "partial",
   "theorems": [
    "C17_failed_write_refuted",
    "C17_nothing_written_partial"
   ],
   "note": "REFUTED by the code: the part of a write that fits is kept when the rest does not exist; no other register changes and odd or unplaced writes change nothing (proved)."
  },
  {
   "property": "C18",
   "status": "partial",
   "theorems": [
    "C18_no_len_refuted",
    "C18_loaded_blocks_readable_partial"
   ],
   "note": "REFUTED by the code: a hexstr element without len gives a float count, and reads reaching the end of the block raise TypeError; proved when every hexstr has a len its text fits."
  },
  {
   "property": "C19",
   "status": "partial",
   "theorems": [
    "C19_no_len_refuted",
    "C19_roundtrip_partial",
    "C19_number_text",
    "C19_save_needs_data"
   ],
   "note": "REFUTED by the code: such a count is written as '2.0' and cannot be loaded; proved for maps with integer counts (access rights come back as 'r')."
  },
  {
   "property": "C20",
   "status": "proved",
   "theorems": [
    "C20_contents_are_declared"
   ],
   "note": ""
  },
  {
   "property": "C21",
   "status": "partial",
   "theorems": [
    "C21_oversized_text_refuted"
   ],
   "note": "REFUTED by the code: surplus text shifts the registers that follow in the block; without surplus the contents are as declared (C20)."
  },
  {
   "property": "C22",
   "status": "proved",
   "theorems": [
    "C22_crc_is_modbus_crc16",
    "C22_check_accepts_valid_frames_only"
   ],
   "note": ""
  },
  {
   "property": "C23",
   "status": "proved",
   "theorems": [
    "C23_one_altered_byte_detected",
    "C23_two_adjacent_altered_bytes_detected",
    "C23_burst_of_16_bits_detected",
    "C23_odd_number_of_bits_detected"
   ],
   "note": ""
  },
  {
   "property": "C24",
   "status": "proved",
   "theorems": [
    "C24_read_requests_well_formed",
    "C24_write_requests_well_formed",
    "C24_bad_arguments_rejected_before_sending",
    "C24_bad_write_arguments_rejected_before_sending"
   ],
   "note": ""
  },
  {
   "property": "C25",
   "status": "proved",
   "theorems": [
    "C25_read_independent_of_delivery",
    "C25_write_independent_of_delivery",
    "C25_one_response_consumed"
   ],
   "note": ""
  },
  {
   "property": "C26",
   "status": "proved",
   "theorems": [
    "C26_read_returns_device_memory"
   ],
   "note": ""
  },
  {
   "property": "C27",
   "status": "proved",
   "theorems": [
    "C27_write_stores_the_data",
    "C27_store_is_exact"
   ],
   "note": ""
  },
  {
   "property": "C28",
   "status": "proved",
   "theorems": [
    "C28_read_outcome",
    "C28_write_outcome",
    "C28_truncated_response_times_out",
    "C28_exception_response_raised",
    "C28_exception_code_zero"
   ],
   "note": ""
  },
  {
   "property": "C29",
   "status": "proved",
   "theorems": [
    "C29_corrupted_response_raises"
   ],
   "note": ""
  },
  {
   "property": "C30",
   "status": "partial",
   "theorems": [
    "C30_write_reply_checked",
    "C30_read_reply_refuted",
    "C30_tcp_write_reply_refuted"
   ],
   "note": "REFUTED by the code for reads (client.py:272-279 checks only the CRC: another slave, function or amount of data is accepted); proved for RTU writes. TCP matches neither reads nor writes (C30_tcp_write_reply_refuted)."
  },
  {
   "property": "C31",
   "status": "proved",
   "theorems": [
    "C31_read_independent_of_segmentation",
    "C31_write_independent_of_segmentation",
    "C31_one_response_consumed"
   ],
   "note": ""
  },
  {
   "property": "C32",
   "status": "proved",
   "theorems": [
    "C32_read_returns_device_memory_connected",
    "C32_read_returns_device_memory_unconnected"
   ],
   "note": ""
  },
  {
   "property": "C33",
   "status": "partial",
   "theorems": [
    "C33_long_write_refuted",
    "C33_short_write_partial"
   ],
   "note": "REFUTED by the code: a write of more than max_count registers raises UnboundLocalError before sending anything (client.py:943-950); proved for writes of up to max_count registers."
  },
  {
   "property": "C34",
   "status": "proved",
   "theorems": [
    "C34_requests_preserve_connection",
    "C34_temporary_connection_closed"
   ],
   "note": ""
  },
  {
   "property": "C35",
   "status": "partial",
   "theorems": [
    "C35_failed_connection_is_final_refuted",
    "C35_retry_after_disconnect_partial"
   ],
   "note": "REFUTED by the code: after a failed connection attempt the socket object stays in place (client.py:702-730) and no later request reconnects; proved after disconnect()."
  },
  {
   "property": "C36",
   "status": "partial",
   "theorems": [
    "C36_late_reply_refuted",
    "C36_no_failures_partial"
   ],
   "note": "REFUTED by the code: transaction id is always 0 and not matched, a late reply is taken for the next one; proved for histories without failures."
  },
  {
   "property": "C37",
   "status": "partial",
   "theorems": [
    "C37_timeout_escapes_refuted",
    "C37_other_failures_partial"
   ],
   "note": "REFUTED by the code: socket.timeout escapes from reads and writes (client.py:764, 879); all other failures proved."
  },
  {
   "property": "C38",
   "status": "proved",
   "theorems": [
    "C38_port_open_exactly_while_used",
    "C38_shared_client",
    "C38_mismatch_refused",
    "C38_match_shares",
    "C38_new_port_settings",
    "C38_failed_open_has_no_effect"
   ],
   "note": ""
  },
  {
   "property": "C39",
   "status": "partial",
   "theorems": [
    "C39_close_does_not_disturb_partial",
    "C39_double_close_refuted",
    "C39_same_slave_refuted"
   ],
   "note": "REFUTED by the code: a second close unregisters a client opened since, and two devices with one slave id share an entry; proved for single closes of devices with distinct slave ids."
  },
  {
   "property": "C40",
   "status": "proved",
   "theorems": [
    "C40_model_layout",
    "C40_bad_length_rejected"
   ],
   "note": ""
  },
  {
   "property": "C41",
   "status": "partial",
   "theorems": [
    "C41_zero_length_refuted",
    "C41_load_terminates_partial"
   ],
   "note": "REFUTED by the code: a repeating block of length 0 (or less) loops forever; termination proved for positive lengths."
  },
  {
   "property": "C42",
   "status": "proved",
   "theorems": [
    "C42_points_within_limit",
    "C42_no_needless_request",
    "C42_requests_within_limit",
    "C42_points_in_one_chunk"
   ],
   "note": ""
  },
  {
   "property": "C43",
   "status": "proved",
   "theorems": [
    "C43_links_local_first",
    "C43_unresolved_fails"
   ],
   "note": ""
  },
  {
   "property": "C44",
   "status": "partial",
   "theorems": [
    "C44_read_decodes",
    "C44_short_answer_rejected",
    "C44_read_keeps_structure",
    "C44_failed_request",
    "C44_empty_answer_refuted"
   ],
   "note": "Decoding and rejection of wrong lengths proved for every device that behaves as a memory; REFUTED for an empty answer, which is taken for success."
  },
  {
   "property": "C45",
   "status": "partial",
   "theorems": [
    "C45_writes_sent",
    "C45_write_stores",
    "C45_nothing_modified",
    "C45_short_text_refuted"
   ],
   "note": "Proved whenever the encodings have the size of their points; REFUTED for texts under 8 registers (one byte too many shifts what follows)."
  },
  {
   "property": "C46",
   "status": "partial",
   "theorems": [
    "C46_write_then_read",
    "C46_set_is_assignment",
    "C46_integers_storable",
    "C46_texts_storable",
    "C46_unimplemented_scaled_refuted"
   ],
   "note": "Proved for storable values (all integers and texts as characterised); REFUTED for scaled points that the device reports as unimplemented."
  },
  {
   "property": "C47",
   "status": "partial",
   "theorems": [
    "C47_point_write_partial",
    "C47_write_points_partial",
    "C47_marks_lost_refuted"
   ],
   "note": "REFUTED by the code for write_points (marks cleared before the data is sent); proved for a single point's write, and that later points keep their marks."
  },
  {
   "property": "C48",
   "status": "proved",
   "theorems": [
    "C48_scan_finds_models",
    "C48_chain_unique",
    "C48_loads_end"
   ],
   "note": ""
  },
  {
   "property": "C49",
   "status": "proved",
   "theorems": [
    "C49_rtu_scan_terminates",
    "C49_tcp_scan_terminates"
   ],
   "note": "Assumes definitions without zero-length repeating blocks (with one, Model.load itself does not terminate: C41)."
  },
  {
   "property": "C50",
   "status": "partial",
   "theorems": [
    "C50_first_marker_partial",
    "C50_no_map_partial",
    "C50_mapped_device_refuted",
    "C50_empty_answer_refuted"
   ],
   "note": "REFUTED by the code for mapped devices (ModbusMapError for address 40000 escapes) and for an empty RTU answer (None[:4], TypeError); proved (iff) for Modbus client errors and other data."
  },
  {
   "property": "C51",
   "status": "partial",
   "theorems": [
    "C51_second_scan_refuted",
    "C51_rescan_after_no_map_partial"
   ],
   "note": "REFUTED by the code: a second scan always raises UnboundLocalError (client.py:267); after a scan that found no map the device is unchanged (partial)."
  },
  {
   "property": "C52",
   "status": "partial",
   "theorems": [
    "C52_models",
    "C52_device_name_refuted",
    "C52_models_name_refuted",
    "C52_scan_failure",
    "C52_failure_closes",
    "C52_get",
    "C52_set"
   ],
   "note": "REFUTED for model names that clash with attributes of the wrapper ('device', 'models', method names): C52_device_name_refuted, C52_models_name_refuted; proved for all other names (C52_models)"
  },
  {
   "property": "C53",
   "status": "proved",
   "theorems": [
    "C53_roundtrip"
   ],
   "note": ""
  },
  {
   "property": "C54",
   "status": "partial",
   "theorems": [
    "C54_roundtrip_partial",
    "C54_stale_value_refuted",
    "C54_unimplemented_value_refuted"
   ],
   "note": "REFUTED: the first repeating block is written without an index and so applies to every repeating block on loading; impl=\"false\" does not clear a value, so stale values remain; and an unimplemented scaled point's value raises TypeError after loading (C54_stale_value_refuted, C54_unimplemented_value_refuted). Proved: the round trip whenever no later block lacks a value that the first repeating block has (C54_roundtrip_partial)."
  },
  {
   "property": "C55",
   "status": "partial",
   "theorems": [
    "C55_too_large_partial",
    "C55_document_rejected",
    "C55_existing_partial",
    "C55_index_refuted",
    "C55_negative_refuted",
    "C55_too_negative_partial",
    "C55_device_errors"
   ],
   "note": "REFUTED: block indices from -n to 0 are accepted and an index equal to the block count raises IndexError instead of SunSpecError at model level (C55_index_refuted). Proved: every larger index is rejected, every existing one accepted, and the whole-device error behaviour."
  },
  {
   "property": "C56",
   "status": "partial",
   "theorems": [
    "C56_addr_refuted",
    "C56_default_partial"
   ],
   "note": "REFUTED: any addr attribute makes loading fail with TypeError (text + 2) (C56_addr_refuted). Proved: the default addressing (C56_default_partial)."
  },
  {
   "property": "C57",
   "status": "partial",
   "theorems": [
    "C57_definitions",
    "C57_loaded",
    "C57_answer_partial",
    "C57_symmetric",
    "C57_self_partial",
    "C57_value_found",
    "C57_nan_refuted",
    "C57_unknown_refuted",
    "C57_scale_factor_refuted"
   ],
   "note": "REFUTED: a device with a not-a-number value differs from itself (C57_nan_refuted), a model of unknown type makes the comparison raise AttributeError (C57_unknown_refuted), and differences in scale factor points are not found (C57_scale_factor_refuted). Proved: for devices whose models all have definitions the comparison always answers, False exactly when types, block counts, values and scale factors of all other points agree (C57_answer_partial), symmetrically (C57_symmetric), and a device without NaN equals itself."
  },
  {
   "property": "C58",
   "status": "partial",
   "theorems": [
    "C58_answer_partial",
    "C58_same_definition_partial",
    "C58_symbols_refuted",
    "C58_missing_refuted",
    "C58_point_found"
   ],
   "note": "REFUTED: a definition with symbols loaded twice never compares equal (C58_symbols_refuted: symbol lists are compared by object identity) and attributes only one side has are not compared (C58_missing_refuted). Proved: the exact characterisation (C58_answer_partial), equality of definitions without symbols, and that differences in compared attributes are found."
  },
  {
   "property": "C59",
   "status": "partial",
   "theorems": [
    "C59_loaded",
    "C59_accepted_iff",
    "C59_no_model_refuted",
    "C59_layout_refuted",
    "C59_error_partial",
    "C59_error_kinds",
    "C59_error_refuted",
    "C59_request_error"
   ],
   "note": "REFUTED in part by code: a document without a model element, a non-numeric block len and overlapping offsets are accepted (device.py:991-1055, 1166), and a missing or unreadable number is reported as TypeError or ValueError by from_smdx (C59_error_refuted). Proved: for documents with a model element, exact acceptance condition (iff), full description of the loaded layout, SunSpecError for every rejected definition with readable numbers, and SunSpecError for every failing request of a parseable document."
  },
  {
   "property": "C60",
   "status": "partial",
   "theorems": [
    "C60_always_reads_refuted",
    "C60_second_read_refuted",
    "C60_distinct_objects",
    "C60_same_definition_partial",
    "C60_missing"
   ],
   "note": "REFUTED by code: model_types is looked up by str(id) but stored under the int id (device.py:896, 926), so it never hits. Proved instead: every history of requests gives the same definition for an id while files do not change."
  },
  {
   "property": "C61",
   "status": "proved",
   "theorems": [
    "C61_round_trip",
    "C61_injective",
    "C61_names",
    "C61_five_digits"
   ],
   "note": ""
  },
  {
   "property": "C62",
   "status": "partial",
   "theorems": [
    "C62_what_is_kept",
    "C62_round_trip_partial",
    "C62_first_index_refuted",
    "C62_to_text_partial",
    "C62_to_text_refuted",
    "C62_foreign_root",
    "C62_foreign_device",
    "C62_reading_appends"
   ],
   "note": "REFUTED in part by code: a model index of 1 is dropped (data.py:249), an index above 1 makes to_xml_str raise TypeError (data.py:250 stores an int attribute). Proved: exact description of what is kept for every record; nothing but timestamps is lost when labels are non-empty and indices are None, >1 (models), nonzero (points)."
  },
  {
   "property": "C63",
   "status": "partial",
   "theorems": [
    "C63_model_add_refuted",
    "C63_model_add_index_lost_refuted",
    "C63_namespace_unwritable_refuted",
    "C63_model_add_partial",
    "C63_point_add",
    "C63_device_add",
    "C63_timestamp_refuted",
    "C63_timestamp_partial"
   ],
   "note": "REFUTED by code: model_add swaps index and namespace (data.py:141 vs 215); from_xml stores the timestamp under .time (data.py:160). point_add, device_add proved."
  },
  {
   "property": "C64",
   "status": "partial",
   "theorems": [
    "C64_first_path_wins_partial",
    "C64_directory_after_archive_refuted",
    "C64_trailing_separator_refuted"
   ],
   "note": "REFUTED by code: zip_file_path is not reset between paths, so a directory after an existing archive is not searched (C64_directory_after_archive_refuted), and trailing separators/empty paths misbehave. Proved for documented paths with directories before archives."
  },
  {
   "property": "C65",
   "status": "proved",
   "theorems": [
    "C65_content_preserved",
    "C65_idempotent",
    "C65_layout"
   ],
   "note": ""
  },
  {
   "property": "C66",
   "status": "partial",
   "theorems": [
    "C66_path_list_restored_partial",
    "C66_program_partial",
    "C66_path_list_restored_refuted",
    "C66_outer_list_unchanged",
    "C66_inside",
    "C66_add",
    "C66_add_without_list"
   ],
   "note": "REFUTED: arguments are converted with os.fspath after the global path list was replaced and before the try statement; with an argument that is no path (TypeError) the new list stays in effect (C66_path_list_restored_refuted, for every such call). Proved for all calls whose arguments are paths, whatever the block does: restored, outer list unchanged, inside exactly the given paths."
  },
  {
   "property": "C67",
   "status": "partial",
   "theorems": [
    "C67_default_write_limit_refuted",
    "C67_limit_respected_partial"
   ],
   "note": "REFUTED by the code: default max_count 125 exceeds the 123 registers of function 16; proved for limits up to 123."
  },
  {
   "property": "C68",
   "status": "partial",
   "theorems": [
    "C68_trace_breaks_reads_refuted",
    "C68_trace_breaks_tcp_refuted"
   ],
   "note": "REFUTED by the code: in Python 3 reads with a trace function raise TypeError (client.py:236). The same for TCP (C68_trace_breaks_tcp_refuted)."
  },
  {
   "property": "C69",
   "status": "partial",
   "theorems": [
    "C69_equal_iff_no_difference",
    "C69_reflexive",
    "C69_prefix_refuted"
   ],
   "note": "Proved for whole maps; REFUTED where data is a prefix of the other's (no difference reported one way, IndexError the other)."
  },
  {
   "property": "C70",
   "status": "partial",
   "theorems": [
    "C70_failed_scan_stays_connected_refuted",
    "C70_successful_scan_disconnects_refuted",
    "C70_connect_error_refuted"
   ],
   "note": "REFUTED by the code: a failing scan stays connected, a successful one disconnects always, a refused connection raises ModbusClientError."
  },
  {
   "property": "C71",
   "status": "proved",
   "theorems": [
    "C71_callback_stops_scan"
   ],
   "note": ""
  },
  {
   "property": "C72",
   "status": "proved",
   "theorems": [
    "C72_scan_does_not_write",
    "C72_read_does_not_write"
   ],
   "note": ""
  },
  {
   "property": "C73",
   "status": "proved",
   "theorems": [
    "C73_rtu_scan_and_read",
    "C73_tcp_scan_and_read",
    "C73_mapped_scan_and_read"
   ],
   "note": ""
  },
  {
   "property": "C74",
   "status": "proved",
   "theorems": [
    "C74_rtu_write_isolated",
    "C74_tcp_write_isolated",
    "C74_mapped_write_isolated"
   ],
   "note": ""
  },
  {
   "property": "C75",
   "status": "partial",
   "theorems": [
    "C75_model",
    "C75_fixed",
    "C75_repeating_partial",
    "C75_shadowed_refuted"
   ],
   "note": "REFUTED: strings for a point id that the fixed block also has never reach the point of the repeating block (C75_shadowed_refuted); model, fixed points and other repeating points proved exactly."
  },
  {
   "property": "C76",
   "status": "partial",
   "theorems": [
    "C76_symbols_partial",
    "C76_shared_refuted",
    "C76_nameless_refuted"
   ],
   "note": "REFUTED: points with one id in both blocks share symbol objects (C76_shared_refuted), and strings naming an unknown symbol add a symbol without id (C76_nameless_refuted); proved when point ids are distinct across the blocks."
  },
  {
   "property": "C77",
   "status": "partial",
   "theorems": [
    "C77_hex_file_loaded",
    "C77_reads_partial",
    "C77_last_register_refuted",
    "C77_outside",
    "C77_write_then_read",
    "C77_failure_changes_nothing",
    "C77_missing_or_empty_rejected",
    "C77_malformed_rejected",
    "C77_nonempty_map_refuted"
   ],
   "note": "REFUTED: the block's length is a float, so no read that includes the last register of the file succeeds (TypeError), and loading into a map that has blocks breaks their order; proved: loading, reads that end earlier, all writes, rejection of missing, empty and malformed files without any change"
  },
  {
   "property": "C78",
   "status": "proved",
   "theorems": [
    "C78_pics_file",
    "C78_pics_missing",
    "C78_map_file",
    "C78_map_missing"
   ],
   "note": ""
  },
  {
   "property": "C79",
   "status": "partial",
   "theorems": [
    "C79_definition_file_partial",
    "C79_empty_file_hides_refuted",
    "C79_malformed_refuted",
    "C79_check_ignores_paths_refuted",
    "C79_check_succeeds_partial"
   ],
   "note": "REFUTED: an empty file in the working directory hides the package's definition, a malformed one raises the parser's error instead of SunSpecError, and check_for_models ignores the path list it is given; proved: the order of lookup otherwise"
  },
  {
   "property": "C80",
   "status": "partial",
   "theorems": [
    "C80_rtu_partial",
    "C80_close_releases_port",
    "C80_bad_timeout_refuted",
    "C80_tcp",
    "C80_mapped",
    "C80_mapped_needs_name",
    "C80_missing_map_refuted",
    "C80_unknown_type_refuted",
    "C80_no_transport"
   ],
   "note": "REFUTED: a negative timeout raises ValueError and leaves the serial port open and registered with a device nobody can close (C80_bad_timeout_refuted); a missing or malformed map file is a ModbusMapError, not SunSpecClientError (C80_missing_map_refuted); an unknown device type is accepted (C80_unknown_type_refuted). Everything else proved: C80_rtu_partial, C80_tcp, C80_mapped."
  },
  {
   "property": "C81",
   "status": "partial",
   "theorems": [
    "C81_shared_timeout_refuted",
    "C81_last_timeout_wins",
    "C81_own_timeout_partial",
    "C81_tcp_timeout"
   ],
   "note": "REFUTED: serial devices on one port share its timeout (C81_shared_timeout_refuted); exact behaviour proved for every history (C81_last_timeout_wins) and the claim for devices that share no port (C81_own_timeout_partial) and TCP devices."
  },
  {
   "property": "C82",
   "status": "partial",
   "theorems": [
    "C82_tls_verified",
    "C82_failures",
    "C82_options_ignored_without_tls",
    "C82_skip_verify_refuted",
    "C82_client_certificate_required_refuted",
    "C82_connects_partial"
   ],
   "note": "REFUTED: insecure_skip_tls_verify still requires a trusted certificate, and certfile is not optional. The security part (a connection is only made to a verified server) is proved for every network; the ssl library's behaviour is assumed as documented."
  },
  {
   "property": "C83",
   "status": "partial",
   "theorems": [
    "C83_interrupted_write",
    "C83_retry",
    "C83_value_torn_refuted",
    "C83_one_request_atomic_partial"
   ],
   "note": "REFUTED in one part: requests are cut after 125 registers wherever that is, so a value of several registers can be left half written (C83_value_torn_refuted). Everything else proved: prefix of whole requests, retry, and all-or-nothing up to max_count registers."
  },
  {
   "property": "C84",
   "status": "proved",
   "theorems": [
    "C84_shared_line"
   ],
   "note": ""
  },
  {
   "property": "C85",
   "status": "proved",
   "theorems": [
    "C85_read_ignores_leftovers",
    "C85_write_ignores_leftovers",
    "C85_port_refines_exchanges",
    "C85_surplus_stays"
   ],
   "note": ""
  },
  {
   "property": "C86",
   "status": "proved",
   "theorems": [
    "C86_read_all_or_nothing",
    "C86_failed_write",
    "C86_rtu_stores_prefix",
    "C86_rtu_failed_write"
   ],
   "note": ""
  },
  {
   "property": "C87",
   "status": "partial",
   "theorems": [
    "C87_assign_int_point",
    "C87_assign_int_point_rejects",
    "C87_assign_text_point_partial",
    "C87_assign_text_none_refuted",
    "C87_assign_float_point_partial",
    "C87_assign_huge_rejected",
    "C87_assign_extreme_scale_rejected",
    "C87_assign_scaled_nonfinite_rejected",
    "C87_assign_scaled_no_number_rejected",
    "C87_assign_float_text_refuted",
    "C87_assign_marks_pending"
   ],
   "note": "REFUTED for text and float32 points: assigning None to a text point stores the text 'None' (not an error), and assigning a text that is no number to a float32 point silently stores no value and marks the point pending. Proved in full for all integer point types, and for denoting objects for the text and float types."
  },
  {
   "property": "C88",
   "status": "partial",
   "theorems": [
    "C88_add_gives_zero_registers_partial",
    "C88_add_by_offset",
    "C88_add_elsewhere_refused_partial",
    "C88_added_registers_readable",
    "C88_built_maps_are_whole",
    "C88_loaded_map_refuted",
    "C88_access_refuted"
   ],
   "note": "REFUTED in two parts: on a map loaded from a file with an addr attribute every regs_add by address is a TypeError (text base address), and registers added right after the last block silently take that block's access mode. Proved: everything else, for integer base addresses (by address) and any base (by offset)."
  },
  {
   "property": "C89",
   "status": "partial",
   "theorems": [
    "C89_report_complete_partial",
    "C89_read_models_showable_partial",
    "C89_unknown_model_refuted",
    "C89_failing_report_partial",
    "C89_bitfield_digits",
    "C89_large_scale_refuted"
   ],
   "note": "REFUTED: a model whose definition is unknown (model_type None) ends the report with AttributeError, losing every later model; a scale factor register of 309 or more ends it with OverflowError. Proved: completeness and exactness of the report for all devices whose models have definitions and whose values can be computed, which after a read only depends on the scale factors."
  },
  {
   "property": "C90",
   "status": "partial",
   "theorems": [
    "C90_archive_partial",
    "C90_archive_one_repeat",
    "C90_rtu_archive_partial",
    "C90_tcp_archive_partial",
    "C90_gap_refuted"
   ],
   "note": "Proved for models with at most one repeating block (either kind of document), and in general if no point of the first repeating block has a value that a later block lacks. REFUTED beyond that (C90_gap_refuted): an unimplemented point of a later block comes back with the value of the first."
  },
  {
   "property": "C91",
   "status": "proved",
   "theorems": [
    "C91_record",
    "C91_device",
    "C91_model",
    "C91_stream"
   ],
   "note": ""
  },
  {
   "property": "C92",
   "status": "partial",
   "theorems": [
    "C92_answer_partial",
    "C92_answer_one_repeat",
    "C92_archive_partial",
    "C92_values_everywhere",
    "C92_unimplemented_refuted",
    "C92_unknown_refuted"
   ],
   "note": "REFUTED in general: a point that is not implemented but whose scale factor point has a value has no scale factor after reading, but has one after from_pics, so not_equal reports a difference (C92_unimplemented_refuted); with a model of unknown definition the comparison raises AttributeError (C92_unknown_refuted). Proved: for devices with known definitions and no NaN values, not_equal answers, and answers equal exactly if every unset point has the scale factor its scale factor point holds (C92_answer_partial, C92_answer_one_repeat, after scanning and reading C92_archive_partial), in particular when no unset point has a scale factor (C92_values_everywhere)."
  },
  {
   "property": "C93",
   "status": "partial",
   "theorems": [
    "C93_answer_partial",
    "C93_int_base_refuted"
   ],
   "note": "REFUTED in general: base_addr is a number in a map made by the constructor (or loaded from a document without addr) and a text after loading, so not_equal always reports a difference (C93_int_base_refuted); and access other than 'r' is not written. Proved: for maps with whole blocks not_equal answers, and answers equal exactly if the address is already a text (loaded from a document with addr) and all blocks have access 'r'."
  },
  {
   "property": "C94",
   "status": "partial",
   "theorems": [
    "C94_all_or_nothing",
    "C94_success_partial",
    "C94_retry_partial",
    "C94_late_acknowledgement_refuted",
    "C94_tcp_stores_some",
    "C94_tcp_failed_model_write"
   ],
   "note": "REFUTED in one part: on a connection kept open, the late acknowledgement of a write that timed out is taken for the next write, which is reported as done although refused (C94_late_acknowledgement_refuted). Proved: all or nothing in every state (C94_all_or_nothing), success means stored when nothing is unread (C94_success_partial), retries with a connection each (C94_retry_partial), models (C94_tcp_failed_model_write)."
  },
  {
   "property": "C95",
   "status": "proved",
   "theorems": [
    "C95_rtu_script",
    "C95_tcp_script",
    "C95_mapped_script",
    "C95_integers_read_back",
    "C95_scaled_read_back",
    "C95_no_such_attribute"
   ],
   "note": "Scripts of assignments with values the registers can hold (accepted); what is accepted is shown for integers and for values of scaled points; other values: C87, C46."
  },
  {
   "property": "C96",
   "status": "partial",
   "theorems": [
    "C96_read_reaches_own_slave",
    "C96_write_reaches_own_slave",
    "C96_ports_independent",
    "C96_closed_device_partial",
    "C96_closed_is_client_error_refuted",
    "C96_closed_device_silent_refuted",
    "C96_own_timeout_refuted"
   ],
   "note": "Proved for every history: routing, timeout in force, independence of ports, what a closed device does. REFUTED: a closed device raises OSError, not ModbusClientError (C96_closed_is_client_error_refuted); while another device in use shares its port a closed device still sends (C96_closed_device_silent_refuted); opening a second device with a timeout changes that of the first (C96_own_timeout_refuted)."
  },
  {
   "property": "C97",
   "status": "proved",
   "theorems": [
    "C97_any_device",
    "C97_same_on_every_transport",
    "C97_scan_and_read_within"
   ],
   "note": "Programs are strategies; requests outside the registers of the device are excluded by a hypothesis on the log of the ideal device, which C97_scan_and_read_within discharges for scan + read of a SunSpec map. close is not an operation here (C96)."
  },
  {
   "property": "C98",
   "status": "partial",
   "theorems": [
    "C98_device_text_tells_all",
    "C98_wrapper_text_partial",
    "C98_repeated_model_refuted",
    "C98_value_error_refuted"
   ],
   "note": "REFUTED for the wrapper: with two models of one name the text shows the wrapper objects' addresses instead of values (C98_repeated_model_refuted), and one value that cannot be computed makes str() raise (C98_value_error_refuted). Proved: the text of a Device determines everything (C98_device_text_tells_all), and the wrapper's text is complete when model names are distinct and values computable (C98_wrapper_text_partial)."
  },
  {
   "property": "C99",
   "status": "partial",
   "theorems": [
    "C99_accepted_texts",
    "C99_rejected_texts",
    "C99_full_address_partial",
    "C99_short_form_refuted",
    "C99_lower_case_refuted",
    "C99_read_text_refuted"
   ],
   "note": "REFUTED: 2001:DB8::1 is taken and stored as 2001:DB81:: (C99_short_form_refuted); lower case digits are rejected (C99_lower_case_refuted); the text read from a point is never an RFC 4291 text, its groups have eight digits (C99_read_text_refuted, for all contents). Proved: addresses written out in full with upper case digits are stored exactly (C99_full_address_partial), and exactly which texts are accepted, what is stored, and which exception other texts give (C99_accepted_texts, C99_rejected_texts)."
  },
  {
   "property": "C100",
   "status": "partial",
   "theorems": [
    "C100_same_definitions_partial",
    "C100_attributes_stay",
    "C100_points_of_last_call",
    "C100_points_lost_refuted",
    "C100_foreign_attribute_refuted"
   ],
   "note": "REFUTED: the class of an id is shared, so creating a device while the definition cannot be loaded empties points and text of existing wrappers (C100_points_lost_refuted, for every wrapper), and another definition gives them attributes without points (C100_foreign_attribute_refuted). Proved: unchanged if later definitions have the same points; attributes keep working always; points are those of the last call."
  },
  {
   "property": "C101",
   "status": "partial",
   "theorems": [
    "C101_faultless_port",
    "C101_read_errors",
    "C101_write_errors",
    "C101_failures_reported_partial",
    "C101_flush_failure_escapes_refuted",
    "C101_read_failure_escapes_refuted",
    "C101_undefined_code_refuted"
   ],
   "note": "REFUTED: only serial.write is inside a try block, so exceptions of flushInput and serial.read come out of read, write and scan unchanged (C101_flush_failure_escapes_refuted, C101_read_failure_escapes_refuted), and a write answered by the undefined Modbus exception 0 raises struct.error (C101_undefined_code_refuted). Proved: these are the only exceptions besides SunSpecClientError (C101_read_errors, C101_write_errors), and if only sending fails every error is SunSpecClientError (C101_failures_reported_partial)."
  },
  {
   "property": "C102",
   "status": "partial",
   "theorems": [
    "C102_wrapper_partial",
    "C102_points_refuted",
    "C102_model_refuted",
    "C102_name_refuted",
    "C102_name_number_refuted",
    "C102_read_refuted",
    "C102_block_name_refuted",
    "C102_repeating_refuted",
    "C102_no_repeating_class"
   ],
   "note": "REFUTED for names that the wrapper classes use themselves: a string point called name is overwritten with the name of the model and marked as modified, so the next write() sends it to the device (C102_name_refuted); a number called name, or a point called points or model, makes the wrapper impossible (C102_name_number_refuted, C102_points_refuted, C102_model_refuted); a point called read hides the method (C102_read_refuted); a repeating block called like a string point overwrites it, called model it makes the points unreadable (C102_block_name_refuted). Proved for all definitions without such names (C102_wrapper_partial). Not modelled: ids of the form __x__."
  },
  {
   "property": "C103",
   "status": "partial",
   "theorems": [
    "C103_own_devices_partial",
    "C103_own_devices_return_partial",
    "C103_one_at_a_time_partial",
    "C103_shared_device_refuted",
    "C103_shared_connect_refuted"
   ],
   "note": "REFUTED for a device object that two threads use at the same time: on one connection they get each other's registers (C103_shared_device_refuted), and without a connection one closes the socket under the other, whose call fails with ModbusClientError or AttributeError although its write took effect (C103_shared_connect_refuted). Proved: threads with device objects of their own, all schedules (C103_own_devices_partial, C103_own_devices_return_partial), and shared objects used by one call at a time (C103_one_at_a_time_partial). Modelled: calls that fit one request, a server that answers every request."
  },
  {
   "property": "C104",
   "status": "proved",
   "theorems": [
    "C104_resume",
    "C104_again"
   ],
   "note": "Maps with blocks that are not whole (hexstr registers without a length) cannot be saved: C19_no_len_refuted. The access rights, which no operation looks at, are not kept (C19)."
  },
  {
   "property": "C105",
   "status": "partial",
   "theorems": [
    "C105_report_partial",
    "C105_options_used",
    "C105_defaults",
    "C105_same_on_every_transport",
    "C105_bad_options",
    "C105_no_map",
    "C105_server_down_refuted",
    "C105_map_file_refuted",
    "C105_unknown_model_refuted",
    "C105_read_error_refuted",
    "C105_taken_name_refuted"
   ],
   "note": "REFUTED for some failures, with general theorems or witnesses: a server that refuses the connection, a missing or malformed map file, a map that does not start at 40000, an error while points are read, and an unknown model end with a Python traceback instead of an error line (for the last two after part of the output). Proved: complete report for known models with computable values, early end otherwise (C105_report_partial); identical output on all transports; the four error cases reported properly."
  },
  {
   "property": "C106",
   "status": "partial",
   "theorems": [
    "C106_rtu_values_were_held_partial",
    "C106_tcp_values_were_held_partial",
    "C106_rtu_value_of_one_moment_partial",
    "C106_rtu_scaled_value_never_held_refuted",
    "C106_tcp_scaled_value_never_held_refuted"
   ],
   "note": "REFUTED for scaled values of models of more than 125 registers (C106_rtu_scaled_value_never_held_refuted, C106_tcp_...): value and scale factor are read by different requests; a device that reports 10000 all the time (as 1000 with scale factor 1 or as 10000 with scale factor 0) is read as 100000. Proved: each point's own value is of one moment of this read; models of at most 125 registers are of one moment."
  },
  {
   "property": "C107",
   "status": "proved",
   "theorems": [
    "C107_rtu_scan_and_read",
    "C107_tcp_scan_and_read"
   ],
   "note": "For devices and servers that answer every read of the slave with the registers of the moment; the map headers stay the same at all times."
  },
  {
   "property": "C108",
   "status": "proved",
   "theorems": [
    "C108_pics_format",
    "C108_read_device_format",
    "C108_map_format",
    "C108_record_format"
   ],
   "note": "About the element trees; the text of documents is made by the standard library (a model index above 1 of a data record is stored as a number in the tree, which the standard library refuses to write: C62_to_text_refuted)."
  },
  {
   "property": "C109",
   "status": "proved",
   "theorems": [
    "C109_as_if_alone",
    "C109_calls_return",
    "C109_right_answers",
    "C109_one_at_a_time",
    "C109_shared_port_needs_one_thread",
    "C109_shared_port_lost_reply"
   ],
   "note": "The docstring of ModbusClientRTU says that devices of one port must be used single threaded; C109_shared_port_needs_one_thread shows that without this a read returns, without any error, registers of another slave."
  },
  {
   "property": "C110",
   "status": "proved",
   "theorems": [
    "C110_calendar",
    "C110_text",
    "C110_fraction",
    "C110_now",
    "C110_order",
    "C110_restriction_needed",
    "C110_written",
    "C110_no_number"
   ],
   "note": "time.gmtime and time.strftime are library functions, modelled after their documentation. C110_restriction_needed: beyond 9999 the texts no longer sort."
  },
  {
   "property": "C111",
   "status": "partial",
   "theorems": [
    "C111_unassigned_partial",
    "C111_never_sent_partial",
    "C111_access_ignored_refuted",
    "C111_read_only_written_refuted",
    "C111_map_access_ignored_refuted",
    "C111_map_read_only_written_refuted"
   ],
   "note": "REFUTED as stated: the access setting of a point or of a map's registers is stored but never consulted (C111_access_ignored_refuted and C111_map_access_ignored_refuted: for all models, maps, devices; C111_read_only_written_refuted, C111_map_read_only_written_refuted: witnesses). Proved: whatever the device answers, only registers of modified points are ever sent, so read-only points are safe in programs that do not assign to them."
  },
  {
   "property": "C112",
   "status": "partial",
   "theorems": [
    "C112_text",
    "C112_text_exact",
    "C112_pics_partial",
    "C112_pics_restored_partial",
    "C112_map_partial",
    "C112_map_restored_partial",
    "C112_record_partial",
    "C112_record_restored_partial",
    "C112_control_refuted",
    "C112_cr_refuted",
    "C112_empty_refuted",
    "C112_pics_control_refuted"
   ],
   "note": "REFUTED: a string value with a control character (0x01, NUL inside, ...) is written without complaint by to_xml_str/to_pics into a text that cannot be loaded again (C112_control_refuted for every control character, C112_pics_control_refuted); a carriage return comes back as a line feed and '' as None (C112_cr_refuted, C112_empty_refuted). Proved for all other texts: the general round trip (C112_text, C112_text_exact) and that PICS files, map files and record texts, pretty or not, load as their elements do (C112_pics_partial, C112_map_partial, C112_record_partial), so that C19, C54 and C62 carry over (_restored_partial). The XML library is modelled, not the pure Python package."
  },
  {
   "property": "C113",
   "status": "proved",
   "theorems": [
    "C113_apart",
    "C113_calls_return",
    "C113_one_at_a_time",
    "C113_own_ports_results",
    "C113_own_ports_open_while_used",
    "C113_shared_port_opened_twice",
    "C113_shared_port_closed_under_a_device",
    "C113_shared_port_close_raises"
   ],
   "note": "C113_apart (any group of threads with ports of its own is as if alone), C113_calls_return (at most six steps per call), C113_one_at_a_time (serial calls, shared ports included, refine M_Registry), C113_own_ports_results, C113_own_ports_open_while_used. The documented restriction to one thread per client is necessary: C113_shared_port_opened_twice, C113_shared_port_closed_under_a_device, C113_shared_port_close_raises are concrete races on one port."
  },
  {
   "property": "C114",
   "status": "proved",
   "theorems": [
    "C114_requests_at_one_moment",
    "C114_reads",
    "C114_reads_undisturbed",
    "C114_writes",
    "C114_empty_writes",
    "C114_only_writes_change",
    "C114_calls_return"
   ],
   "note": "C114_requests_at_one_moment (linearizability of the single requests), C114_reads, C114_reads_undisturbed, C114_writes, C114_empty_writes, C114_only_writes_change, C114_calls_return. C114_ex_run shows that a read of more than max_count registers is not atomic as a whole. Each thread has a device object of its own: sharing one is refuted by C103."
  },
  {
   "property": "C115",
   "status": "proved",
   "theorems": [
    "C115_value_read",
    "C115_value_read_unscaled",
    "C115_value_assigned",
    "C115_decimal_stored",
    "C115_whole_stored",
    "C115_reassign",
    "C115_values_differ"
   ],
   "note": "C115_value_read, C115_value_read_unscaled, C115_value_assigned, C115_decimal_stored, C115_whole_stored, C115_reassign, C115_values_differ; C115_ex_accurate proves the hypothesis for a concrete math.pow. Uses the axioms of the standard library's Reals (listed by Print Assumptions). For 64-bit registers beyond 2^50 re-assigning may lose the last bits (C13)."
  },
  {
   "property": "C116",
   "status": "proved",
   "theorems": [
    "C116_nearest",
    "C116_text_is_decimal",
    "C116_text_is_read",
    "C116_texts_differ",
    "C116_float_texts",
    "C116_clean_floats",
    "C116_registers",
    "C116_assigned",
    "C116_map_element",
    "C116_archive_file",
    "C116_archive_gapless"
   ],
   "note": "C116_nearest, C116_text_is_decimal, C116_text_is_read, C116_texts_differ, C116_registers, C116_assigned, C116_map_element; C116_float_texts and C116_clean_floats discharge the hypotheses of C90, C92, C108 and C112 about floats; C116_archive_file, C116_archive_gapless. py_repr and py_float were compared with CPython on 360 floats and 40 texts. Uses the axioms of the standard library's Reals. Points without a value in some but not all repeating blocks: C54 and C90 (refuted there)."
  },
  {
   "property": "C117",
   "status": "proved",
   "theorems": [
    "C117_text_stored",
    "C117_shown_text",
    "C117_texts_differ"
   ],
   "note": "C117_text_stored, C117_shown_text, C117_texts_differ. math.pow is assumed accurate to an ulp (as in C115; C117_ex_accurate shows such a pow). Scale factors -300..280; SunSpec's are -10..10."
  },
  {
   "property": "C118",
   "status": "partial",
   "theorems": [
    "C118_negative_scale_refuted",
    "C118_positive_scale_partial",
    "C118_close_partial"
   ],
   "note": "REFUTED: register 3 with scale factor -1 reads 0.30000000000000004, not 0.3 (C118_negative_scale_refuted). True for positive scale factors whose power of ten is exact, up to 10^22 (C118_positive_scale_partial); in general true to 50 bits, and text and value store the same register (C118_close_partial)."
  },
  {
   "property": "C119",
   "status": "proved",
   "theorems": [
    "C119_text_tells_layout",
    "C119_same_text_same_values",
    "C119_restriction_needed"
   ],
   "note": "C119_text_tells_layout, C119_same_text_same_values; C119_restriction_needed: a scale factor called None is shown like no scale factor. Symbols, labels, units and notes are not part of the text."
  },
  {
   "property": "C120",
   "status": "proved",
   "theorems": [
    "C120_read",
    "C120_program",
    "C120_quiet",
    "C120_text_tells_layout"
   ],
   "note": "C120_read (every map), C120_program, C120_quiet, C120_text_tells_layout. Not modelled: ET.dump in BlockType.from_smdx (device.py:1179) and the two debugging prints of Point.not_equal."
  },
  {
   "property": "C121",
   "status": "proved",
   "theorems": [
    "C121_read",
    "C121_text",
    "C121_text_is_display",
    "C121_quotes",
    "C121_text_tells_paths",
    "C121_add_last"
   ],
   "note": "C121_read, C121_text (lists_known: a program names only lists it made; C121_known_needed), C121_add_last, C121_text_is_display, C121_quotes, C121_text_tells_paths. repr() is a model of CPython's, with str.isprintable outside ASCII as a parameter; the attribute path is not used."
  },
  {
   "property": "C122",
   "status": "proved",
   "theorems": [
    "C122_same_text_same_values",
    "C122_value_texts_differ",
    "C122_read_values_told"
   ],
   "note": "C122_same_text_same_values, C122_value_texts_differ, C122_read_values_told (values read from any registers); C122_none_needed shows why a text None is excluded. Layout conditions are those of C98. math.pow (of py_env) is a parameter and does not matter."
  }
 ]
}