# Formal model of pysunspec in Rocq (Coq 8.16.1)

## Scope and conventions

* Python 3 semantics (3.5-3.8) of `/repo/sunspec/core`. The Python 2 branches
  (`sys.version_info < (3,)`) are not modelled.
* Each Python function is a total Gallina function; exceptions are values
  (`res A := Ok a | Raise e`, exception class in `exn`), mutation is state passing, loops are
  structural recursion or fuel (out-of-fuel is a distinct outcome, never a normal value).
* `bytes` and `str` are lists of `Z` (byte values / code points). latin-1 decoding is the identity,
  latin-1 encoding fails on code points > 255.
* Python `int` is `Z`. `/` on ints gives a Python float: modelled where it matters by the type
  `num` (`NI z` / `NF h`, h = number of halves), exact below 2^53 (assumption on sizes).
* dicts are association lists in insertion order (Python >= 3.7; only `read_points` error paths depend on it).
* Files: `M_*.v` model (code), `S_*.v` specification (English property in math, independent of the
  model), `P_*.v` proofs, `C_*.v` property theorems, each `exact` a lemma, with `Print Assumptions`
  and non-vacuity `Example`s. `C_Nonvac.v` applies the end-to-end theorems (C49, C73, C74, C90, C92, C95, C97) to concrete
  devices with every hypothesis discharged.

## Plan per property

| id | model | how proved |
|----|-------|-----------|
| C01 | struct pack/unpack of h H l L q Q as base-256 digits | spec: positional big-endian value, two's complement; induction on width |
| C02,C03 | data_to_str/str_to_data, `Ns` packing | lists; C03 false (fields < 16 bytes get an extra NUL): `_refuted` + proved for >= 16 |
| C04,C05 | hex formatting and b16decode | byte sweep (256) lifted, induction |
| C06 | type table with the real arities | false for eui48 (`to_data` called with 2 args, takes 1) and short strings; proved for the others |
| C07 | Flocq binary32/binary64 conversion | Flocq correctness lemmas |
| C08,C09 | type table + is_impl + decode | per type; C09 false (uint64 uses the signed codec) |
| C10 | int(x,0) parser, str(int) | induction on digits |
| C11-C13 | Flocq binary64 `*`, `/`, round-half-even; `math.pow` an arbitrary float | relative error bounds over R; C13 refuted by a computed witness |
| C14-C21 | ModbusMap over `num` | invariant over element list; refinement to offset -> register map; C17, C18, C21 refuted by witnesses with the restricted versions proved |
| C22,C23 | table CRC vs bitwise CRC | xor-linearity, injectivity of the zero-byte step, 256-entry sweeps |
| C24-C30 | RTU `_read`/`read`/`_write`/`write` over a byte stream delivered by a schedule | stream lemma; loop invariants |
| C31-C37 | TCP likewise with socket state | same; C33,C35-C37 refuted by witnesses |
| C38,C39 | RTU client registry as a state machine | invariant over op histories; C39 refuted |
| C40-C43 | Model.load (fuelled while) | loop invariant; C41 refuted for zero-length repeating blocks, proved otherwise |
| C44-C47 | read_points/write_points over abstract memory | frame lemmas; C47 refuted |
| C48-C51 | scan over a device oracle | chain induction; C50 refuted for mapped devices, C51 refuted |
| C52 | wrapper naming fold | induction |
| C53-C56 | element trees, to_pics/from_pics | C54-C56 refuted with restricted versions proved |
| C57,C58 | not_equal functions | structural; symbols compared by object identity -> C58 refuted |
| C59,C60 | from_smdx over element trees, model_type_get | C60 refuted (str key looked up, int key stored) |
| C61 | '%05d' and int() | digits |
| C62,C63 | data.py over element trees | C63 refuted |
| C64 | PathList.read over an abstract file system | induction; refuted for a directory listed after a zip file |
| C65 | indent | tree induction |
| C66 | context manager as bracket, arguments that os.fspath rejects | induction on program nesting; refutation: conversion happens before the try statement |
| C67 | default write chunks on the line | chunk lengths of the sent requests; refuted (125 > 123) |
| C68 | trace function as an extra argument | the traced run is the untraced run |
| C69 | ModbusMap.not_equal | structural; refuted by witnesses where it raises or misses a difference |
| C70-C72 | scan/read over the TCP state, callback, any device behaviour | invariants over the request log |
| C73,C74 | composition of M_Rtu/M_Tcp/M_Mbmap with M_Scan/M_Client | refinement of each transport to abstract memory, then the memory-level theorems |
| C75,C76 | from_smdx texts and symbols (symbol objects in a log with their dict keys) | per-point invariant over the events touching it; framing of other point ids; shared ids refuted |
| C77 | from_hex: text decoding of the file, lines, words, numerals; block with a float count | grammar of files as an inductive relation; exact outcome of every read of a one-block map; general refutation at the last register |
| C78,C79 | file lookup of from_pics, from_xml and model_type_get over an abstract file system (M_Path.fsys); check_for_models | inductive relation "which file is found", equivalence with loading the parsed content |
| C80,C81 | construction of ClientDevice and of the three Modbus devices over the port registry (M_Registry), the timeouts of the serial objects, files as in C78 | case analysis; invariant over histories of creating and closing (last timeout given wins) |
| C82 | ModbusClientDeviceTCP.connect with TLS over an abstract network (which servers accept, what their certificates are, which files load); the ssl library is described by its documented behaviour, not modelled | case analysis over every network |
| C83,C84 | the RTU client of M_Rtu on lines that fail at any exchange (assumption: an acknowledgement of a request implies its execution), and on lines with several slaves | loop invariant (prefix of whole requests written); induction over histories against a sequential specification of the memories |
| C85 | M_Line: the serial port with an input buffer and flushInput as a step | refinement: the port client and M_Rtu give the same results for every buffer content |
| C86 | ClientModel.read_points/write_points (M_Client) on any device, and on devices that store prefixes | simulation of the write loops against the list of requests sent; instance for unreliable serial lines |
| C87 | `value_setter`, `to_value` and `point_set` for an absent/zero scale factor | spec S_Assign: integer literals (S_Codec grammar), real truncation `Ztrunc`, canonical decimal text; iff-theorem for integer types, uniqueness of canonical text for text types; refuted: None becomes the text "None", a non-number text for float32 is stored as "no value". |
| C88 | regs_add (M_Mbmap) by address and by offset | register-level semantics of S_Mbmap before and after; refusal iff not after every block; induction over sequences of additions; refuted for text base addresses (loaded maps) and for the access mode of adjacent registers |
| C89 | report loops of suns.py (M_Report) incl. %-formatting of labels, hex and decimal numbers | entries of a device by flat_map (S_Report), lines related to entries by a predicate using the integer literal grammar; structural induction; models as read by read_points shown to satisfy the hypotheses; refuted for models without definition and overflowing scale factors |
| C90 | scan, read_points, to_pics and from_pics composed (M_Scan, M_Client, M_Pics) | a read of a freshly loaded model settles every point (decoding yields storable values), so the document theorems C53, C54 apply; composed with C73 |
| C91 | from_xml of the three classes on objects with content (M_Data) | case analysis, induction on the stream |
| C92 | M_Pics, M_NotEq (existing), restored models of C53/C54 with the scale factors of unset points | composition of C53/C54/C90 with C57: exact condition under which the comparison says equal; refuted by computation for an unimplemented scaled point |
| C93 | M_Mbmap (existing) | composition of C19 and C69; exact condition |
| C94 | M_Tcp (existing), unreliable servers in S_TcpFault | case analysis of one request (a longer write raises before sending), invariant over failed attempts, composition with C86 |
| C95 | M_Wrapper (attribute access, read, write) over M_Client, M_Scan and the transports | composition of C73, C52, C87 and the write/read theorems C45-C46; induction over the list of assignments against a specification of "last assigned value" (S_Script); instances for RTU, TCP, mapped |
| C96 | M_Bus: registry of serial clients (M_Registry) with the lines behind the ports and the devices opened on them | invariant over histories of open/close/read/write; refuted: exception class after close, silent use of a shared port, shared timeout |
| C97 | M_Session: programs over a ClientDevice as interaction trees (each step depends on all earlier results) | simulation relation between the state of a transport and a register memory, induction over the program |
| C98 | `__str__` of Device/Model/Block/Point and of the wrapper classes (M_Print) | injectivity of the concatenated texts (unique decomposition by separators); refuted for repeated models and for values that cannot be computed |
| C99 | ipv6addr codec (M_Util, M_Suns) against the text grammar of RFC 4291 (S_Addr) | case analysis over the parsed text; refuted for short forms, lower case and for the text read |
| C100 | the class cache of the wrapper (M_Classes) over sequences of devices | invariant over sequences of constructions; refuted when definitions change |
| C101 | M_Port: the serial port whose flush, write and read can each raise, under the RTU client | outcome of a request by cases over the fault script of the port; faultless port = M_Rtu; refuted for flush and read failures |
| C102 | M_Attr: attribute lookup and assignment of wrapper objects with Python's rules (instance dict, class attributes, properties) | frame lemma per setattr for ids that are not reserved; refuted for ids equal to attributes of the class |
| C103 | M_Threads: the TCP client as a small-step machine (send, one recv per step), several threads, any scheduler | linearizability by an invariant relating the threads to a sequential history; refuted for threads sharing one device object |
| C104 | programs of M_Session on a mapped device, to_xml and from_xml of M_Mbmap | invariant: maps reachable from a loaded map can be saved exactly; simulation original/loaded map |
| C105 | suns.py:38-116 from the parsed options to output and exit (M_Main), on top of M_Construct, M_Scan, M_Wrapper, M_Client, M_Report | the run on any device that holds the memory equals the run on an ideal device (simulation of C97); there the scan finds the models, the wrapper succeeds for free names, the read decodes (C73) and the report is that of C89 |
| C106 | no new code: read_points (M_Client) on the serial and TCP clients (M_Rtu, M_Tcp, M_Scan) with a slave about whose registers after a request nothing is assumed (S_Live) | the requests of C42 split no point and no point lies beyond the first 125 registers of its chunk, so its registers come from one request; induction over the chunks and over the loop of read |
| C107 | no new code: scan and device_read_points (M_Scan, M_Client) on the serial and TCP clients with the live slaves of S_Live | induction over the chain of models (the registers read by the scan are only marker, ids and lengths), then C106's theorem for every model |
| C108 | no new code: device_to_pics (M_Pics), map_to_xml (M_Mbmap), sdata_to_xml (M_Data) against a specification of the formats with all names spelled out (S_Format) | induction over models, blocks and points; the points found by id are a permutation of the block's points in the order of the definition |
| C109 | the calls of ModbusClientRTU as sequences of steps (flushInput, serial.write, each serial.read), threads and ports (M_SThreads) | a step touches one thread and one port, so a thread runs as if alone; the steps of a thread alone compute rtu_read and rtu_write of M_Rtu (induction over the receive loop and the requests), to which C26 and C27 apply; a schedule for the need of the restriction |
| C110 | timestamp_add with gmtime (closed formulas for the civil date, floor of floats) and strftime (M_Time); the calendar as the unique sequence of dates in which each is the day after the one before (S_Time) | the closed formulas follow the calendar: periodicity and a check of one period of 400 years by vm_compute, then induction over the days; strict growth of dates; digits of fixed width sort like numbers; Flocq's Zfloor for floats |
| C111 | write_points (M_Client) on any device, with its requests recorded; ModbusMap.write (M_Mbmap); models and maps with other access settings (S_Access) | the requests on a failing device are a prefix of those on the device that accepts everything (induction over points and blocks), to which C45 applies; access settings commute with assigning and writing (induction) |
| C112 | ET.tostring/ET.fromstring as functions between element trees and character sequences (M_XmlText: escaping, references, encoding; a parser for elements, attributes, text) and the text entry points of data.py (M_DataText); the file entry points are those of M_Files with the parser plugged in | parsing what was serialized gives the tree up to empty texts (induction on the tree, fuel bounded by the length); the loaders cannot see the remaining differences nor indentation; what the library writes is writable; refuted for control characters, carriage returns, empty values |
| C113 | constructor and close cut into single steps on shared objects (registry, devices dict, port), any number of threads, schedules as lists of turns (M_RThreads) | noninterference by a step-by-step relation between the runs with and without the other threads; whole calls simulate M_Registry up to the naming of objects, so C38 carries over; a measure bounds the steps of a call; three race witnesses show that sharing a port needs the one-at-a-time rule |
| C114 | read and write with their request loops cut into single steps, threads with programs of calls, schedules as lists of turns (M_MThreads); one server shared by all connections, which answers every request (S_Tcp's hypotheses) | an ideal program in which each request is one step runs alongside, by an invariant kept in every turn; a log of the moments of each call, kept by induction over the schedule, gives the portions; a measure bounds the turns of each thread |
| C115 | the value property (M_Point), on binary64 numbers with the arithmetic of Coq's SpecFloat; math.pow only through its accuracy (S_Accuracy) | Flocq's correctness theorems of the float operations, composition of relative errors; a math.pow built from correctly rounded operations is proved accurate, so that the hypothesis can be met |
| C116 | float() and str(float) of Python 3 themselves (M_FloatText: exact integer arithmetic, one correctly rounded division, the shortest decimal that reads back in repr layout), which the other files leave open as [pyenv] | Flocq's correctness of division, the distance of neighbouring floats (17 digits determine a float), induction on digits; then C90, C92, C108, C112 without hypotheses on texts of floats |
| C117 | M_Point.value_getter / value_setter with the float texts of M_FloatText | error bounds: the text is read within half an ulp, the division loses another 2 ulp, round() is exact within 1/2 (C115); the shortest text of a float lies within half an ulp of it |
| C118 | M_Point.value_getter against M_FloatText.py_float | computed counterexample; Bmult_correct for exact powers; C115's bound and C117 in general |
| C119 | __str__ of ModelType, BlockType, PointType (M_TypeText); loading and reading (M_Device, M_Client) | the lines of the text determine their fields (splitting at blanks); loading and reading commute with forgetting everything the text does not tell |
| C120 | ModbusMap.__str__, ModbusMapRegs.__str__ and the print in ModbusMap.read (M_Output) | simulation between the mapped device that notes its requests and the one that prints (P_Resume); writes keep the layout of a map, so its text and which requests fail never change |
| C121 | PathList objects as references to Python lists, repr of text (M_PathObj), reading (M_Path) | invariant relating the heap of lists to the record of operations; repr is read back character by character |
| C122 | device text (M_Print) with Python's number texts (py_env, M_FloatText) | C98 (the text tells the texts of values) and injectivity of the texts of ints and floats (C116) |

## Trusted base

1. **Coq's kernel** (8.16.1), including its `vm_compute` reduction, which some proofs use for finite computations on closed
   terms. No axiom, `Admitted`, section-less `Variable`/`Hypothesis`, functor, module type or plugin of our own.
2. **Axioms.** Result of `Print Assumptions` for every theorem listed in MANIFEST.json (regenerated by `tools/assumptions.py`):

<!-- assumptions -->
| theorems | axioms listed by Print Assumptions |
|---|---|
| all 467 theorems of MANIFEST.json not named below | none (Closed under the global context) |
| C87_assign_int_point, C87_assign_int_point_rejects, C95_integers_read_back, C110_fraction | ClassicalDedekindReals.sig_forall_dec, FunctionalExtensionality.functional_extensionality_dep |
| C06_float_writable_partial, C07_float32_bit_exact, C07_float32_value, C08_unimplemented_float, C11_reassign_keeps_registers, C12_assign_stores_nearest, C87_assign_float_point_partial, C87_assign_huge_rejected, C90_archive_partial, C90_archive_one_repeat, C90_rtu_archive_partial, C90_tcp_archive_partial, C92_archive_partial, C95_scaled_read_back, C108_read_device_format, C115_value_read, C115_value_assigned, C115_decimal_stored, C115_whole_stored, C115_reassign, C115_values_differ, C116_nearest, C116_text_is_decimal, C116_text_is_read, C116_texts_differ, C116_float_texts, C116_registers, C116_assigned, C116_map_element, C116_archive_file, C116_archive_gapless, C117_text_stored, C117_shown_text, C117_texts_differ, C118_positive_scale_partial, C118_close_partial, C122_same_text_same_values, C122_value_texts_differ, C122_read_values_told | ClassicalDedekindReals.sig_forall_dec, ClassicalDedekindReals.sig_not_dec, Classical_Prop.classic, FunctionalExtensionality.functional_extensionality_dep |
<!-- end -->

   These axioms belong to Coq's standard library (the construction of the real numbers and the classical logic it is used
   with); they come in through Flocq's theorems about rounding. Flocq itself adds no axiom.
3. **Faithfulness of the model.** `theories/M_*.v` are hand-written transcriptions of the Python text; every definition names
   the file and lines it transcribes and says where it simplifies. That they describe the program is trusted, not proved. Evidence: the project's unit tests
   (`/repo/sunspec/core/test`) are replayed in the model with their inputs and expected results, documents included
   (`theories/T_Tests.v`, documents generated by `tools/xml2coq.py` into `theories/T_Docs.v`); the three tests left out need
   model definitions that are not in /repo.
4. **Faithfulness of the specifications** `theories/S_*.v` and of the theorem statements in `theories/C_*.v` to the English
   of properties.jsonl.

### Modelled

| code | model |
|---|---|
| `core/util.py`: all codecs (`data_to_*`, `*_to_data`), `PathList.read`, `indent` | M_Util, M_Float, M_Path |
| `core/suns.py`: type table, `suns_to_int`, `suns_to_str`, `is_impl`, `to_value` | M_Suns |
| `core/device.py`: points, blocks, `Model.load`, value getter and setter, `to_pics`, `from_pics`, `not_equal`, `from_smdx` of all types, `model_type_get`, `check_for_models`, `path_context` | M_Point, M_Device, M_Pics, M_NotEq, M_Smdx, M_Files, M_Path |
| `core/client.py`: `ClientDevice` (construction, `scan`, `read`, `write`, `read_points`, `close`), `ClientModel`, `ClientPoint`, the scripting wrapper | M_Construct, M_Scan, M_Client, M_Wrapper |
| `core/modbus/client.py`: RTU client, registry of ports, RTU, TCP and mapped devices, CRC, TLS options of `connect` | M_Crc, M_Wire, M_Rtu, M_Line, M_Registry, M_Bus, M_Tcp, M_Construct |
| `core/modbus/mbmap.py`: `ModbusMap`, `ModbusMapRegs`, loading from XML and hexadecimal files, `to_xml`, `not_equal` | M_Mbmap, M_Hexmap, M_Files |
| `core/smdx.py`: file names and ids | M_Smdx |
| `core/data.py`: records, `to_xml`, `from_xml` | M_Data |
| `core/pics.py`: the attribute names | M_Pics |
| `scripts/suns.py`: the report, and the program from its parsed options to output and exit status | M_Report, M_Main |
| compositions of the above: programs, threads, ports that fail, several devices per line | M_Session, M_Threads, M_Port, M_Bus, M_Attr, M_Classes, M_Print |

### Not modelled

* XML text: documents are element trees (tag, attributes in order, text, tail, children); where a file is read, the parser is an
  arbitrary function from its content to a tree or an exception. Only C112 models `xml.etree` serialisation and parsing (M_XmlText,
  after the library's source and the XML recommendation): without comments, CDATA, declarations, name spaces and non-ASCII names.
* Operating system, serial ports, sockets and TLS: a device on the other end is an arbitrary state machine answering bytes, the
  bytes arrive in arbitrary portions, the file system is an arbitrary function from names to contents, the TLS library is
  described by its documented behaviour. Real time is not modelled: a timeout is an event.
* The texts of exceptions and of traces (only the exception class), logging, `print`.
* The printing of floats (`repr`), the parsing of float texts and `math.pow(10, n)`: arbitrary functions in the environment
  `pyenv`, so that the theorems hold for any implementation, with the needed properties as explicit hypotheses.
* The limit of 4300 digits on conversions between int and str of Python >= 3.11.
* Python 2 branches; threads (the library starts none; callers that use several: only M_Threads, C103); object identity except where the code depends on it (symbols, shared
  path lists, wrapper attributes).
* The parsing of the command line of `scripts/suns.py` (optparse), `data.DeviceData.timestamp_add` (formatting of a date), and the constructors that
  only copy their arguments.

## Notes on the code found while reading (memory aid; each becomes a theorem)

* str_to_data appends NUL and enlarges slen when slen < 16 -> odd length for fields < 8 registers.
* eui48_to_data takes one argument, callers pass two -> TypeError.
* uint64/acc64 use data_to_s64/s64_to_data.
* mbmap: Python 3 `/`: hexstr without len -> float count: reading through the end of the block slices
  with a float -> TypeError; str(count) = '2.0' cannot be reloaded; string without len -> struct.error.
  hexstr text longer than len shifts later contiguous registers. write past block end writes a prefix
  then raises. to_xml drops access; from_xml leaves base_addr a str if attr present.
* TCP write > max_count: `start` unbound -> UnboundLocalError. recv exceptions escape. connect failure
  leaves socket non-None -> never reconnects. transaction id always 0 -> stale responses accepted.
* exception response with code 0 is treated as an empty success. reads do not check slave/function/length.
* RTU registry keyed by slave id; double close unregisters a later client.
* load: zero/negative repeating length loops forever; unresolved sf raises TypeError (bad format).
* write_points clears dirty before the write happens.
* scan: ModbusMapError is not a ModbusClientError -> mapped devices not at 40000 fail; second scan ->
  UnboundLocalError.
* PICS: addr attr -> str + int TypeError; missing len -> int(None); repeating block without index applies to
  all blocks and impl="false" does not clear the value; index == len(blocks) -> IndexError, negative wraps;
  value_sf set on a None value -> later to_pics raises TypeError.
* not_equal compares symbols by identity, skips attributes that are None on either side.
* model_types is looked up by str, stored by int.
* data.py: model_add swaps index/namespace; index > 1 stored as int (cannot be serialised);
  from_xml sets .time instead of .timestamp.
* PathList.read: zip_file_path not reset between paths.
