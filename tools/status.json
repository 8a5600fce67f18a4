{
"C02": {
"status": "partial",
"note": "Proved for every non-empty string; the empty string comes back as NUL (C02_empty_string_refuted), which read reports as None."
},
"C03": {
"status": "partial",
"note": "REFUTED by the code for fields under 16 bytes (one byte too many, util.py:148-150); exact size proved from 16 bytes on."
},
"C06": {
"status": "partial",
"note": "REFUTED by the code for eui48 (eui48_to_data takes one argument, util.py:153) and short strings; proved for all other types."
},
"C08": {
"status": "partial",
"note": "Proved for the 16/32-bit and int64 integer types, ipv6addr and float32. REFUTED for string (first NUL suffices) and eui48 (all-zero reported None); uint64/acc64 under C09."
},
"C09": {
"status": "partial",
"note": "REFUTED by the code (suns.py:184-185 use the signed codec); proved for values below 2^63."
},
"C13": {
"status": "partial",
"note": "REFUTED by the code for 64-bit points (value goes through a float: 2^53+1 is altered); proved up to 2^50 under C11."
},
"C30": {
"status": "partial",
"note": "REFUTED by the code for reads (client.py:272-279 checks only the CRC: another slave, function or amount of data is accepted); proved for RTU writes. TCP matches neither reads nor writes (C30_tcp_write_reply_refuted)."
},
"C67": {
"status": "partial",
"note": "REFUTED by the code: default max_count 125 exceeds the 123 registers of function 16; proved for limits up to 123."
},
"C68": {
"status": "partial",
"note": "REFUTED by the code: in Python 3 reads with a trace function raise TypeError (client.py:236). The same for TCP (C68_trace_breaks_tcp_refuted)."
},
"C33": {
"status": "partial",
"note": "REFUTED by the code: a write of more than max_count registers raises UnboundLocalError before sending anything (client.py:943-950); proved for writes of up to max_count registers."
},
"C35": {
"status": "partial",
"note": "REFUTED by the code: after a failed connection attempt the socket object stays in place (client.py:702-730) and no later request reconnects; proved after disconnect()."
},
"C36": {
"status": "partial",
"note": "REFUTED by the code: transaction id is always 0 and not matched, a late reply is taken for the next one; proved for histories without failures."
},
"C37": {
"status": "partial",
"note": "REFUTED by the code: socket.timeout escapes from reads and writes (client.py:764, 879); all other failures proved."
},
"C39": {
"status": "partial",
"note": "REFUTED by the code: a second close unregisters a client opened since, and two devices with one slave id share an entry; proved for single closes of devices with distinct slave ids."
},
"C17": {
"status": "partial",
"note": "REFUTED by the code: the part of a write that fits is kept when the rest does not exist; no other register changes and odd or unplaced writes change nothing (proved)."
},
"C18": {
"status": "partial",
"note": "REFUTED by the code: a hexstr element without len gives a float count, and reads reaching the end of the block raise TypeError; proved when every hexstr has a len its text fits."
},
"C19": {
"status": "partial",
"note": "REFUTED by the code: such a count is written as '2.0' and cannot be loaded; proved for maps with integer counts (access rights come back as 'r')."
},
"C21": {
"status": "partial",
"note": "REFUTED by the code: surplus text shifts the registers that follow in the block; without surplus the contents are as declared (C20)."
},
"C69": {
"status": "partial",
"note": "Proved for whole maps; REFUTED where data is a prefix of the other's (no difference reported one way, IndexError the other)."
},
"C41": {
"status": "partial",
"note": "REFUTED by the code: a repeating block of length 0 (or less) loops forever; termination proved for positive lengths."
},
"C44": {
"status": "partial",
"note": "Decoding and rejection of wrong lengths proved for every device that behaves as a memory; REFUTED for an empty answer, which is taken for success."
},
"C45": {
"status": "partial",
"note": "Proved whenever the encodings have the size of their points; REFUTED for texts under 8 registers (one byte too many shifts what follows)."
},
"C46": {
"status": "partial",
"note": "Proved for storable values (all integers and texts as characterised); REFUTED for scaled points that the device reports as unimplemented."
},
"C47": {
"status": "partial",
"note": "REFUTED by the code for write_points (marks cleared before the data is sent); proved for a single point's write, and that later points keep their marks."
},
"C49": {
"status": "proved",
"note": "Assumes definitions without zero-length repeating blocks (with one, Model.load itself does not terminate: C41)."
},
"C50": {
"status": "partial",
"note": "REFUTED by the code for mapped devices (ModbusMapError for address 40000 escapes) and for an empty RTU answer (None[:4], TypeError); proved (iff) for Modbus client errors and other data."
},
"C51": {
"status": "partial",
"note": "REFUTED by the code: a second scan always raises UnboundLocalError (client.py:267); after a scan that found no map the device is unchanged (partial)."
},
"C70": {
"status": "partial",
"note": "REFUTED by the code: a failing scan stays connected, a successful one disconnects always, a refused connection raises ModbusClientError."
},
"C64": {
"status": "partial",
"note": "REFUTED by code: zip_file_path is not reset between paths, so a directory after an existing archive is not searched (C64_directory_after_archive_refuted), and trailing separators/empty paths misbehave. Proved for documented paths with directories before archives."
},
"C62": {
"status": "partial",
"note": "REFUTED in part by code: a model index of 1 is dropped (data.py:249), an index above 1 makes to_xml_str raise TypeError (data.py:250 stores an int attribute). Proved: exact description of what is kept for every record; nothing but timestamps is lost when labels are non-empty and indices are None, >1 (models), nonzero (points)."
},
"C63": {
"status": "partial",
"note": "REFUTED by code: model_add swaps index and namespace (data.py:141 vs 215); from_xml stores the timestamp under .time (data.py:160). point_add, device_add proved."
},
"C59": {
"status": "partial",
"note": "REFUTED in part by code: a document without a model element, a non-numeric block len and overlapping offsets are accepted (device.py:991-1055, 1166), and a missing or unreadable number is reported as TypeError or ValueError by from_smdx (C59_error_refuted). Proved: for documents with a model element, exact acceptance condition (iff), full description of the loaded layout, SunSpecError for every rejected definition with readable numbers, and SunSpecError for every failing request of a parseable document."
},
"C60": {
"status": "partial",
"note": "REFUTED by code: model_types is looked up by str(id) but stored under the int id (device.py:896, 926), so it never hits. Proved instead: every history of requests gives the same definition for an id while files do not change."
},
"C52": {
"status": "partial",
"note": "REFUTED for model names that clash with attributes of the wrapper ('device', 'models', method names): C52_device_name_refuted, C52_models_name_refuted; proved for all other names (C52_models)"
},
"C54": {
"status": "partial",
"note": "REFUTED: the first repeating block is written without an index and so applies to every repeating block on loading; impl=\"false\" does not clear a value, so stale values remain; and an unimplemented scaled point's value raises TypeError after loading (C54_stale_value_refuted, C54_unimplemented_value_refuted). Proved: the round trip whenever no later block lacks a value that the first repeating block has (C54_roundtrip_partial)."
},
"C55": {
"status": "partial",
"note": "REFUTED: block indices from -n to 0 are accepted and an index equal to the block count raises IndexError instead of SunSpecError at model level (C55_index_refuted). Proved: every larger index is rejected, every existing one accepted, and the whole-device error behaviour."
},
"C56": {
"status": "partial",
"note": "REFUTED: any addr attribute makes loading fail with TypeError (text + 2) (C56_addr_refuted). Proved: the default addressing (C56_default_partial)."
},
"C57": {
"status": "partial",
"note": "REFUTED: a device with a not-a-number value differs from itself (C57_nan_refuted), a model of unknown type makes the comparison raise AttributeError (C57_unknown_refuted), and differences in scale factor points are not found (C57_scale_factor_refuted). Proved: for devices whose models all have definitions the comparison always answers, False exactly when types, block counts, values and scale factors of all other points agree (C57_answer_partial), symmetrically (C57_symmetric), and a device without NaN equals itself."
},
"C58": {
"status": "partial",
"note": "REFUTED: a definition with symbols loaded twice never compares equal (C58_symbols_refuted: symbol lists are compared by object identity) and attributes only one side has are not compared (C58_missing_refuted). Proved: the exact characterisation (C58_answer_partial), equality of definitions without symbols, and that differences in compared attributes are found."
},
"C75": {
"status": "partial",
"note": "REFUTED: strings for a point id that the fixed block also has never reach the point of the repeating block (C75_shadowed_refuted); model, fixed points and other repeating points proved exactly."
},
"C76": {
"status": "partial",
"note": "REFUTED: points with one id in both blocks share symbol objects (C76_shared_refuted), and strings naming an unknown symbol add a symbol without id (C76_nameless_refuted); proved when point ids are distinct across the blocks."
},
"C77": {
"status": "partial",
"note": "REFUTED: the block's length is a float, so no read that includes the last register of the file succeeds (TypeError), and loading into a map that has blocks breaks their order; proved: loading, reads that end earlier, all writes, rejection of missing, empty and malformed files without any change"
},
"C79": {
"status": "partial",
"note": "REFUTED: an empty file in the working directory hides the package's definition, a malformed one raises the parser's error instead of SunSpecError, and check_for_models ignores the path list it is given; proved: the order of lookup otherwise"
},
"C80": {
"status": "partial",
"note": "REFUTED: a negative timeout raises ValueError and leaves the serial port open and registered with a device nobody can close (C80_bad_timeout_refuted); a missing or malformed map file is a ModbusMapError, not SunSpecClientError (C80_missing_map_refuted); an unknown device type is accepted (C80_unknown_type_refuted). Everything else proved: C80_rtu_partial, C80_tcp, C80_mapped."
},
"C81": {
"status": "partial",
"note": "REFUTED: serial devices on one port share its timeout (C81_shared_timeout_refuted); exact behaviour proved for every history (C81_last_timeout_wins) and the claim for devices that share no port (C81_own_timeout_partial) and TCP devices."
},
"C82": {
"status": "partial",
"note": "REFUTED: insecure_skip_tls_verify still requires a trusted certificate, and certfile is not optional. The security part (a connection is only made to a verified server) is proved for every network; the ssl library's behaviour is assumed as documented."
},
"C83": {
"status": "partial",
"note": "REFUTED in one part: requests are cut after 125 registers wherever that is, so a value of several registers can be left half written (C83_value_torn_refuted). Everything else proved: prefix of whole requests, retry, and all-or-nothing up to max_count registers."
},
"C87": {
"status": "partial",
"note": "REFUTED for text and float32 points: assigning None to a text point stores the text 'None' (not an error), and assigning a text that is no number to a float32 point silently stores no value and marks the point pending. Proved in full for all integer point types, and for denoting objects for the text and float types."
},
"C88": {
"status": "partial",
"note": "REFUTED in two parts: on a map loaded from a file with an addr attribute every regs_add by address is a TypeError (text base address), and registers added right after the last block silently take that block's access mode. Proved: everything else, for integer base addresses (by address) and any base (by offset)."
},
"C89": {
"status": "partial",
"note": "REFUTED: a model whose definition is unknown (model_type None) ends the report with AttributeError, losing every later model; a scale factor register of 309 or more ends it with OverflowError. Proved: completeness and exactness of the report for all devices whose models have definitions and whose values can be computed, which after a read only depends on the scale factors."
},
"C90": {
"status": "partial",
"note": "Proved for models with at most one repeating block (either kind of document), and in general if no point of the first repeating block has a value that a later block lacks. REFUTED beyond that (C90_gap_refuted): an unimplemented point of a later block comes back with the value of the first."
},
"C91": {
"status": "proved",
"note": ""
},
"C92": {
"status": "partial",
"note": "REFUTED in general: a point that is not implemented but whose scale factor point has a value has no scale factor after reading, but has one after from_pics, so not_equal reports a difference (C92_unimplemented_refuted); with a model of unknown definition the comparison raises AttributeError (C92_unknown_refuted). Proved: for devices with known definitions and no NaN values, not_equal answers, and answers equal exactly if every unset point has the scale factor its scale factor point holds (C92_answer_partial, C92_answer_one_repeat, after scanning and reading C92_archive_partial), in particular when no unset point has a scale factor (C92_values_everywhere)."
},
"C93": {
"status": "partial",
"note": "REFUTED in general: base_addr is a number in a map made by the constructor (or loaded from a document without addr) and a text after loading, so not_equal always reports a difference (C93_int_base_refuted); and access other than 'r' is not written. Proved: for maps with whole blocks not_equal answers, and answers equal exactly if the address is already a text (loaded from a document with addr) and all blocks have access 'r'."
},
"C94": {
"status": "partial",
"note": "REFUTED in one part: on a connection kept open, the late acknowledgement of a write that timed out is taken for the next write, which is reported as done although refused (C94_late_acknowledgement_refuted). Proved: all or nothing in every state (C94_all_or_nothing), success means stored when nothing is unread (C94_success_partial), retries with a connection each (C94_retry_partial), models (C94_tcp_failed_model_write)."
},
"C95": {
"status": "proved",
"note": "Scripts of assignments with values the registers can hold (accepted); what is accepted is shown for integers and for values of scaled points; other values: C87, C46."
},
"C96": {
"status": "partial",
"note": "Proved for every history: routing, timeout in force, independence of ports, what a closed device does. REFUTED: a closed device raises OSError, not ModbusClientError (C96_closed_is_client_error_refuted); while another device in use shares its port a closed device still sends (C96_closed_device_silent_refuted); opening a second device with a timeout changes that of the first (C96_own_timeout_refuted)."
},
"C97": {
"status": "proved",
"note": "Programs are strategies; requests outside the registers of the device are excluded by a hypothesis on the log of the ideal device, which C97_scan_and_read_within discharges for scan + read of a SunSpec map. close is not an operation here (C96)."
},
"C98": {
"status": "partial",
"note": "REFUTED for the wrapper: with two models of one name the text shows the wrapper objects' addresses instead of values (C98_repeated_model_refuted), and one value that cannot be computed makes str() raise (C98_value_error_refuted). Proved: the text of a Device determines everything (C98_device_text_tells_all), and the wrapper's text is complete when model names are distinct and values computable (C98_wrapper_text_partial)."
},
"C99": {
"status": "partial",
"note": "REFUTED: 2001:DB8::1 is taken and stored as 2001:DB81:: (C99_short_form_refuted); lower case digits are rejected (C99_lower_case_refuted); the text read from a point is never an RFC 4291 text, its groups have eight digits (C99_read_text_refuted, for all contents). Proved: addresses written out in full with upper case digits are stored exactly (C99_full_address_partial), and exactly which texts are accepted, what is stored, and which exception other texts give (C99_accepted_texts, C99_rejected_texts)."
},
"C66": {
"status": "partial",
"note": "REFUTED: arguments are converted with os.fspath after the global path list was replaced and before the try statement; with an argument that is no path (TypeError) the new list stays in effect (C66_path_list_restored_refuted, for every such call). Proved for all calls whose arguments are paths, whatever the block does: restored, outer list unchanged, inside exactly the given paths."
},
"C100": {
"status": "partial",
"note": "REFUTED: the class of an id is shared, so creating a device while the definition cannot be loaded empties points and text of existing wrappers (C100_points_lost_refuted, for every wrapper), and another definition gives them attributes without points (C100_foreign_attribute_refuted). Proved: unchanged if later definitions have the same points; attributes keep working always; points are those of the last call."
},
"C101": {
"status": "partial",
"note": "REFUTED: only serial.write is inside a try block, so exceptions of flushInput and serial.read come out of read, write and scan unchanged (C101_flush_failure_escapes_refuted, C101_read_failure_escapes_refuted), and a write answered by the undefined Modbus exception 0 raises struct.error (C101_undefined_code_refuted). Proved: these are the only exceptions besides SunSpecClientError (C101_read_errors, C101_write_errors), and if only sending fails every error is SunSpecClientError (C101_failures_reported_partial)."
},
"C102": {
"status": "partial",
"note": "REFUTED for names that the wrapper classes use themselves: a string point called name is overwritten with the name of the model and marked as modified, so the next write() sends it to the device (C102_name_refuted); a number called name, or a point called points or model, makes the wrapper impossible (C102_name_number_refuted, C102_points_refuted, C102_model_refuted); a point called read hides the method (C102_read_refuted); a repeating block called like a string point overwrites it, called model it makes the points unreadable (C102_block_name_refuted). Proved for all definitions without such names (C102_wrapper_partial). Not modelled: ids of the form __x__."
},
"C103": {
"status": "partial",
"note": "REFUTED for a device object that two threads use at the same time: on one connection they get each other's registers (C103_shared_device_refuted), and without a connection one closes the socket under the other, whose call fails with ModbusClientError or AttributeError although its write took effect (C103_shared_connect_refuted). Proved: threads with device objects of their own, all schedules (C103_own_devices_partial, C103_own_devices_return_partial), and shared objects used by one call at a time (C103_one_at_a_time_partial). Modelled: calls that fit one request, a server that answers every request."
},
"C104": {
"status": "proved",
"note": "Maps with blocks that are not whole (hexstr registers without a length) cannot be saved: C19_no_len_refuted. The access rights, which no operation looks at, are not kept (C19)."
},
"C105": {
"status": "partial",
"note": "REFUTED for some failures, with general theorems or witnesses: a server that refuses the connection, a missing or malformed map file, a map that does not start at 40000, an error while points are read, and an unknown model end with a Python traceback instead of an error line (for the last two after part of the output). Proved: complete report for known models with computable values, early end otherwise (C105_report_partial); identical output on all transports; the four error cases reported properly."
},
"C106": {
"status": "partial",
"note": "REFUTED for scaled values of models of more than 125 registers (C106_rtu_scaled_value_never_held_refuted, C106_tcp_...): value and scale factor are read by different requests; a device that reports 10000 all the time (as 1000 with scale factor 1 or as 10000 with scale factor 0) is read as 100000. Proved: each point's own value is of one moment of this read; models of at most 125 registers are of one moment."
},
"C107": {
"status": "proved",
"note": "For devices and servers that answer every read of the slave with the registers of the moment; the map headers stay the same at all times."
},
"C108": {
"status": "proved",
"note": "About the element trees; the text of documents is made by the standard library (a model index above 1 of a data record is stored as a number in the tree, which the standard library refuses to write: C62_to_text_refuted)."
},
"C109": {
"status": "proved",
"note": "The docstring of ModbusClientRTU says that devices of one port must be used single threaded; C109_shared_port_needs_one_thread shows that without this a read returns, without any error, registers of another slave."
},
"C110": {
"status": "proved",
"note": "time.gmtime and time.strftime are library functions, modelled after their documentation. C110_restriction_needed: beyond 9999 the texts no longer sort."
},
"C111": {
"status": "partial",
"note": "REFUTED as stated: the access setting of a point or of a map's registers is stored but never consulted (C111_access_ignored_refuted and C111_map_access_ignored_refuted: for all models, maps, devices; C111_read_only_written_refuted, C111_map_read_only_written_refuted: witnesses). Proved: whatever the device answers, only registers of modified points are ever sent, so read-only points are safe in programs that do not assign to them."
},
"C112": {
"status": "partial",
"note": "REFUTED: a string value with a control character (0x01, NUL inside, ...) is written without complaint by to_xml_str/to_pics into a text that cannot be loaded again (C112_control_refuted for every control character, C112_pics_control_refuted); a carriage return comes back as a line feed and '' as None (C112_cr_refuted, C112_empty_refuted). Proved for all other texts: the general round trip (C112_text, C112_text_exact) and that PICS files, map files and record texts, pretty or not, load as their elements do (C112_pics_partial, C112_map_partial, C112_record_partial), so that C19, C54 and C62 carry over (_restored_partial). The XML library is modelled, not the pure Python package."
},
"C113": {
"status": "proved",
"note": "C113_apart (any group of threads with ports of its own is as if alone), C113_calls_return (at most six steps per call), C113_one_at_a_time (serial calls, shared ports included, refine M_Registry), C113_own_ports_results, C113_own_ports_open_while_used. The documented restriction to one thread per client is necessary: C113_shared_port_opened_twice, C113_shared_port_closed_under_a_device, C113_shared_port_close_raises are concrete races on one port."
},
"C114": {
"status": "proved",
"note": "C114_requests_at_one_moment (linearizability of the single requests), C114_reads, C114_reads_undisturbed, C114_writes, C114_empty_writes, C114_only_writes_change, C114_calls_return. C114_ex_run shows that a read of more than max_count registers is not atomic as a whole. Each thread has a device object of its own: sharing one is refuted by C103."
},
"C115": {
"status": "proved",
"note": "C115_value_read, C115_value_read_unscaled, C115_value_assigned, C115_decimal_stored, C115_whole_stored, C115_reassign, C115_values_differ; C115_ex_accurate proves the hypothesis for a concrete math.pow. Uses the axioms of the standard library's Reals (listed by Print Assumptions). For 64-bit registers beyond 2^50 re-assigning may lose the last bits (C13)."
},
"C116": {
"status": "proved",
"note": "C116_nearest, C116_text_is_decimal, C116_text_is_read, C116_texts_differ, C116_registers, C116_assigned, C116_map_element; C116_float_texts and C116_clean_floats discharge the hypotheses of C90, C92, C108 and C112 about floats; C116_archive_file, C116_archive_gapless. py_repr and py_float were compared with CPython on 360 floats and 40 texts. Uses the axioms of the standard library's Reals. Points without a value in some but not all repeating blocks: C54 and C90 (refuted there)."
},
"C117": {
"status": "proved",
"note": "C117_text_stored, C117_shown_text, C117_texts_differ. math.pow is assumed accurate to an ulp (as in C115; C117_ex_accurate shows such a pow). Scale factors -300..280; SunSpec's are -10..10."
},
"C118": {
"status": "partial",
"note": "REFUTED: register 3 with scale factor -1 reads 0.30000000000000004, not 0.3 (C118_negative_scale_refuted). True for positive scale factors whose power of ten is exact, up to 10^22 (C118_positive_scale_partial); in general true to 50 bits, and text and value store the same register (C118_close_partial)."
},
"C119": {
"status": "proved",
"note": "C119_text_tells_layout, C119_same_text_same_values; C119_restriction_needed: a scale factor called None is shown like no scale factor. Symbols, labels, units and notes are not part of the text."
},
"C120": {
"status": "proved",
"note": "C120_read (every map), C120_program, C120_quiet, C120_text_tells_layout. Not modelled: ET.dump in BlockType.from_smdx (device.py:1179) and the two debugging prints of Point.not_equal."
},
"C121": {
"status": "proved",
"note": "C121_read, C121_text (lists_known: a program names only lists it made; C121_known_needed), C121_add_last, C121_text_is_display, C121_quotes, C121_text_tells_paths. repr() is a model of CPython's, with str.isprintable outside ASCII as a parameter; the attribute path is not used."
},
"C122": {
"status": "proved",
"note": "C122_same_text_same_values, C122_value_texts_differ, C122_read_values_told (values read from any registers); C122_none_needed shows why a text None is excluded. Layout conditions are those of C98. math.pow (of py_env) is a parameter and does not matter."
}
}