{"id": "C01", "title": "Integer register codecs are exact inverses", "statement": "For each of the six integer codecs (signed/unsigned 16, 32, 64 bit) encoding an in-range integer yields exactly 2, 4 or 8 bytes in big-endian two's-complement order and decoding those bytes returns the integer; decoding any byte string of the right length and re-encoding returns the same bytes; out-of-range integers and byte strings of another length are rejected with struct.error.", "quantifier": "every integer and every byte string, for all six codecs", "why_tests_cant": "2^64 values per codec; tests sample two each", "anchors": ["sunspec/core/util.py: data_to_s16..data_to_u64, s16_to_data..u64_to_data"]}
{"id": "C02", "title": "String codec round-trips", "statement": "Encoding a latin-1 string that fits the field and does not end in NUL and decoding the bytes gives the string back; a string that is too long is cut to the field size (fields of 16 bytes or more); a non-latin-1 string is rejected.", "quantifier": "every string and every field size", "why_tests_cant": "unbounded strings and sizes", "anchors": ["sunspec/core/util.py: data_to_str, str_to_data"]}
{"id": "C03", "title": "A string point encodes to exactly its register size", "statement": "Encoding any string for a string field of n registers yields exactly 2n bytes, so writing a string point never touches another register.", "quantifier": "every string, every field length", "why_tests_cant": "the single test uses an 8-register field, the smallest that works", "anchors": ["sunspec/core/util.py: str_to_data", "sunspec/core/client.py: ClientModel.write_points, ClientPoint.write"]}
{"id": "C04", "title": "IPv6 address codec round-trips", "statement": "Decoding 16 bytes that are not all zero gives the canonical upper-case hex string, encoding it gives the bytes back; an all-zero field or a field of another length decodes to None.", "quantifier": "every byte string of any length", "why_tests_cant": "2^128 addresses", "anchors": ["sunspec/core/util.py: data_to_ipv6addr, ipv6addr_to_data"]}
{"id": "C05", "title": "EUI-48 codec round-trips", "statement": "Decoding an 8-byte field gives the canonical text of its last six bytes (None when all zero or of another length) and encoding that text gives the last six bytes back preceded by two zero bytes.", "quantifier": "every byte string of any length", "why_tests_cant": "2^64 fields", "anchors": ["sunspec/core/util.py: data_to_eui48, eui48_to_data"]}
{"id": "C06", "title": "Every point type can be written", "statement": "For every point type in the type table, writing a value that was read from the device encodes it to exactly the point's register size.", "quantifier": "every point type and every value its decoder can produce", "why_tests_cant": "needs all types and all values", "anchors": ["sunspec/core/suns.py: suns_point_type_info", "sunspec/core/client.py: ClientPoint.write, ClientModel.write_points"]}
{"id": "C07", "title": "float32 codec is bit exact", "statement": "Decoding any 4 bytes that are not a NaN and re-encoding the resulting Python float gives the same 4 bytes; every NaN pattern decodes to None.", "quantifier": "all 2^32 bit patterns", "why_tests_cant": "2^32 patterns; tests use three", "anchors": ["sunspec/core/util.py: data_to_float, float_to_data32"]}
{"id": "C08", "title": "Unimplemented register patterns read as None", "statement": "For every point type, the register pattern the SunSpec specification designates as \"not implemented\" is reported as None after a read and every other pattern is reported as the decoded value.", "quantifier": "every point type and every register content of its length", "why_tests_cant": "all contents of up to 64 bits for each of 21 types", "anchors": ["sunspec/core/suns.py: suns_point_type_info, suns_is_impl_*", "sunspec/core/client.py: ClientModel.read_points"]}
{"id": "C09", "title": "64-bit unsigned points report their unsigned value", "statement": "A uint64 (acc64) point reports the unsigned value held by its four registers and reports all-ones as unimplemented.", "quantifier": "all 64-bit register contents", "why_tests_cant": "2^64 contents", "anchors": ["sunspec/core/suns.py: suns_point_type_info (uint64, acc64)"]}
{"id": "C10", "title": "Integer text round-trips", "statement": "Converting an integer to text (as PICS and mbmap writers do) and parsing it with the point value parser returns the same integer; text that is not an integer is rejected.", "quantifier": "every integer and every text", "why_tests_cant": "unbounded integers", "anchors": ["sunspec/core/suns.py: suns_to_int, suns_to_long", "sunspec/core/device.py: Point.to_pics, Point.from_pics"]}
{"id": "C11", "title": "Re-assigning a value just read does not change the registers", "statement": "For a scaled point, assigning point.value = point.value leaves the underlying register value unchanged, whatever the scale factor.", "quantifier": "every register value up to 2^50 in magnitude, every non-zero scale factor whose power of ten is representable", "why_tests_cant": "floating-point rounding for every value/scale pair", "anchors": ["sunspec/core/device.py: Point.value_getter, Point.value_setter"]}
{"id": "C12", "title": "Assigning a scaled value stores the nearest register value", "statement": "For a scaled point, assigning v stores an integer within half a unit (plus floating-point error of the division) of v / 10^sf.", "quantifier": "every finite assigned value and every scale factor", "why_tests_cant": "floating-point rounding for every value", "anchors": ["sunspec/core/device.py: Point.value_setter"]}
{"id": "C13", "title": "Scaled values survive for every register width", "statement": "Re-assigning a value just read leaves the register value unchanged also for 64-bit points.", "quantifier": "every 64-bit register value and scale factor", "why_tests_cant": "2^64 values", "anchors": ["sunspec/core/device.py: Point.value_getter, Point.value_setter"]}
{"id": "C14", "title": "A loaded Modbus map has ascending, disjoint register blocks", "statement": "After a successful load from XML (and after any number of regs_add calls) the register blocks are in strictly ascending order, pairwise disjoint and separated by gaps; a definition out of order or overlapping is rejected.", "quantifier": "every map document with non-negative lengths, any number of register elements", "why_tests_cant": "all documents", "anchors": ["sunspec/core/modbus/mbmap.py: ModbusMap.from_xml, regs_add, ModbusMapRegs.append"]}
{"id": "C15", "title": "Map reads are all-or-nothing and exact", "statement": "Reading count registers at an address returns, in order, exactly the two bytes of each addressed register if all of them exist, and raises an error otherwise; it never returns partial or shifted data and never changes the map.", "quantifier": "every well-formed map, address and count", "why_tests_cant": "all maps, addresses and counts", "anchors": ["sunspec/core/modbus/mbmap.py: ModbusMap.read, ModbusMapRegs.read"]}
{"id": "C16", "title": "Map writes change exactly the addressed registers", "statement": "A successful write of 2n bytes at an address sets those n registers to the data and leaves every other register unchanged, so a later read returns the latest write to each register, after any history of writes.", "quantifier": "every well-formed map and every sequence of writes and reads", "why_tests_cant": "all histories", "anchors": ["sunspec/core/modbus/mbmap.py: ModbusMap.write, ModbusMapRegs.write"]}
{"id": "C17", "title": "A failed map write changes nothing", "statement": "If a write to the map raises an error the map is unchanged.", "quantifier": "every map, address and data", "why_tests_cant": "all maps and addresses", "anchors": ["sunspec/core/modbus/mbmap.py: ModbusMap.write"]}
{"id": "C18", "title": "Every register of a loaded map can be read", "statement": "After loading a map, reading any address range that lies inside a register block returns its data.", "quantifier": "every map document", "why_tests_cant": "all documents, with or without explicit len", "anchors": ["sunspec/core/modbus/mbmap.py: ModbusMap.from_xml, read"]}
{"id": "C19", "title": "Modbus map XML round-trip", "statement": "Writing a map to XML and loading the XML gives a map with the same function, blocks and data.", "quantifier": "every loaded map", "why_tests_cant": "all maps", "anchors": ["sunspec/core/modbus/mbmap.py: ModbusMap.to_xml, from_xml, not_equal"]}
{"id": "C20", "title": "Register contents of a loaded map are those of the document", "statement": "After a load the register at every offset holds the data the document declares for that offset, for every sequence of contiguous or separated register elements.", "quantifier": "every map document whose element text fits its len", "why_tests_cant": "all documents", "anchors": ["sunspec/core/modbus/mbmap.py: ModbusMap.from_xml"]}
{"id": "C21", "title": "Oversized register text cannot shift later registers", "statement": "If a register element's text is longer than its len, the registers declared after it still hold their declared data.", "quantifier": "every map document", "why_tests_cant": "all documents", "anchors": ["sunspec/core/modbus/mbmap.py: ModbusMap.from_xml (hexstr)"]}
{"id": "C22", "title": "The CRC is the Modbus CRC-16", "statement": "The table-driven checksum equals the bit-by-bit Modbus CRC-16 (reflected polynomial 0xA001, initial 0xFFFF, byte-swapped) of the data.", "quantifier": "every byte string", "why_tests_cant": "unbounded inputs", "anchors": ["sunspec/core/modbus/client.py: __generate_crc16_table, computeCRC, checkCRC"]}
{"id": "C23", "title": "The CRC check detects transmission errors", "statement": "A frame with a valid CRC in which any one or two adjacent bytes, or any odd number of bits, are altered fails the check.", "quantifier": "every frame of any length and every such error", "why_tests_cant": "all frames times all error patterns", "anchors": ["sunspec/core/modbus/client.py: computeCRC, checkCRC"]}
{"id": "C24", "title": "RTU requests are well-formed Modbus frames", "statement": "Each request sent is slave, function, address, count (and byte count and data for writes) big-endian followed by a valid CRC; arguments that do not fit are rejected before anything is sent.", "quantifier": "every slave id, address, count and data", "why_tests_cant": "all argument combinations", "anchors": ["sunspec/core/modbus/client.py: ModbusClientRTU._read, _write"]}
{"id": "C25", "title": "RTU result does not depend on how the bytes arrive", "statement": "The outcome of an RTU read or write depends only on the sequence of response bytes, not on how the serial port splits it into pieces; exactly the bytes of one response are consumed.", "quantifier": "every response and every way of splitting it", "why_tests_cant": "exponentially many schedules", "anchors": ["sunspec/core/modbus/client.py: ModbusClientRTU._read, _write"]}
{"id": "C26", "title": "Multi-request RTU reads return the device memory", "statement": "Reading count registers from a conforming device returns exactly the count registers starting at addr, using requests of at most max_count registers that are contiguous, in order and cover the range exactly once.", "quantifier": "every address, count, max_count and device memory", "why_tests_cant": "all sizes", "anchors": ["sunspec/core/modbus/client.py: ModbusClientRTU.read"]}
{"id": "C27", "title": "Multi-request RTU writes store exactly the data", "statement": "Writing data to a conforming device stores every register exactly once at its address, using in-order requests of at most max_count registers.", "quantifier": "every address, even-length data, max_count and device memory", "why_tests_cant": "all sizes", "anchors": ["sunspec/core/modbus/client.py: ModbusClientRTU.write"]}
{"id": "C28", "title": "RTU failures are reported as the documented errors", "statement": "A silent or truncated response raises ModbusClientTimeout, a bad CRC ModbusClientError, an exception response with a non-zero code ModbusClientException with that code; none of them returns data.", "quantifier": "every response byte sequence", "why_tests_cant": "all responses", "anchors": ["sunspec/core/modbus/client.py: ModbusClientRTU._read, _write"]}
{"id": "C29", "title": "Corrupted RTU responses are never returned as data", "statement": "If one or two adjacent bytes of the payload, CRC or slave id of a valid response are altered, the read raises an error.", "quantifier": "every response and every such corruption", "why_tests_cant": "all frames and corruptions", "anchors": ["sunspec/core/modbus/client.py: ModbusClientRTU._read"]}
{"id": "C30", "title": "A response is only accepted from the addressed device and function", "statement": "A read or write returns successfully only if the response carries the slave id and function of the request (and, for writes, the address and count; for reads, the requested amount of data).", "quantifier": "every response", "why_tests_cant": "all responses", "anchors": ["sunspec/core/modbus/client.py: ModbusClientRTU._read, _write; ModbusClientDeviceTCP._read, _write"]}
{"id": "C31", "title": "TCP result does not depend on segmentation", "statement": "The outcome of a TCP read or write depends only on the response byte stream, not on how recv splits it, and consumes exactly the bytes of one response.", "quantifier": "every response and every segmentation", "why_tests_cant": "exponentially many schedules", "anchors": ["sunspec/core/modbus/client.py: ModbusClientDeviceTCP._read, _write"]}
{"id": "C32", "title": "Multi-request TCP reads return the device memory", "statement": "As C26, over TCP.", "quantifier": "every address, count, max_count and device memory", "why_tests_cant": "all sizes", "anchors": ["sunspec/core/modbus/client.py: ModbusClientDeviceTCP.read"]}
{"id": "C33", "title": "TCP writes store exactly the data", "statement": "Writing any amount of data over TCP stores every register exactly once at its address.", "quantifier": "every address and even-length data", "why_tests_cant": "all sizes", "anchors": ["sunspec/core/modbus/client.py: ModbusClientDeviceTCP.write"]}
{"id": "C34", "title": "TCP requests leave the connection as they found it", "statement": "A read or write on an unconnected device connects, and whatever happens afterwards leaves the device unconnected; on a connected device it leaves the connection open.", "quantifier": "every history of connect, disconnect, read and write and every failure of the network", "why_tests_cant": "all histories and failure points", "anchors": ["sunspec/core/modbus/client.py: ModbusClientDeviceTCP.read, write, connect, disconnect"]}
{"id": "C35", "title": "A failed connection attempt can be retried", "statement": "After a failed connection attempt by read or write, a later read succeeds once the server is reachable.", "quantifier": "every history", "why_tests_cant": "needs failure injection at every point", "anchors": ["sunspec/core/modbus/client.py: ModbusClientDeviceTCP.connect, read"]}
{"id": "C36", "title": "A TCP response is never attributed to another request", "statement": "After a request that failed, the data returned by a later read is the response to that later read.", "quantifier": "every history of requests, timeouts and late responses", "why_tests_cant": "all schedules", "anchors": ["sunspec/core/modbus/client.py: ModbusClientDeviceTCP._read"]}
{"id": "C37", "title": "TCP timeouts are reported as ModbusClientError", "statement": "Every failure of the network during a TCP request is reported as ModbusClientError (or a subclass).", "quantifier": "every failure point", "why_tests_cant": "all failure points", "anchors": ["sunspec/core/modbus/client.py: ModbusClientDeviceTCP._read, _write"]}
{"id": "C38", "title": "Serial ports are shared and closed with the last user", "statement": "For any history of opening and closing RTU devices in which open devices on a port have distinct slave ids and each is closed once, a port is open and registered exactly while some device uses it, all devices on the port share one client, and mismatching baud rate or parity is refused without side effects.", "quantifier": "every history of opens and closes", "why_tests_cant": "all histories", "anchors": ["sunspec/core/modbus/client.py: modbus_rtu_client, modbus_rtu_client_remove, ModbusClientRTU.add_device, remove_device, ModbusClientDeviceRTU.__init__, close"]}
{"id": "C39", "title": "Closing a device never disturbs another device", "statement": "Closing a device, even twice, does not close or unregister the serial client of another open device.", "quantifier": "every history of opens and closes", "why_tests_cant": "all histories", "anchors": ["sunspec/core/modbus/client.py: ModbusClientRTU.remove_device, ModbusClientDeviceRTU.close"]}
{"id": "C40", "title": "Loaded models tile the reported registers", "statement": "After a successful load the fixed block starts at the model address, repeating blocks follow back to back with indices 1..n, all lie inside the reported length (exactly filling it if the model has a repeating block), and each point has address block address + offset.", "quantifier": "every model definition, model address and reported length", "why_tests_cant": "all definitions and lengths", "anchors": ["sunspec/core/device.py: Model.load"]}
{"id": "C41", "title": "Loading a model terminates", "statement": "Model.load returns or raises for every model definition and reported length.", "quantifier": "every model definition and length", "why_tests_cant": "non-termination cannot be observed by tests", "anchors": ["sunspec/core/device.py: Model.load"]}
{"id": "C42", "title": "Split reads never split a point", "statement": "When a model is read in several requests, the chunks start at the model address, are contiguous and cover the model, and no point of up to 125 registers straddles two chunks; every point in a chunk ends within 125 registers of its start, a chunk ends only before a point that would not, and a model all of whose registers belong to points is read in requests of at most 125 registers.", "quantifier": "every model definition with ordered points and every number of repeating blocks", "why_tests_cant": "all layouts", "anchors": ["sunspec/core/device.py: Model.load", "sunspec/core/client.py: ClientModel.read_points"]}
{"id": "C43", "title": "Scale factor references resolve local-first", "statement": "After a successful load every point with a scale factor is linked to a constant, or else to the scale factor point of its own block, or else to that of the fixed block; if none exists load fails.", "quantifier": "every model definition", "why_tests_cant": "all definitions", "anchors": ["sunspec/core/device.py: Model.load"]}
{"id": "C44", "title": "read_points decodes the device registers", "statement": "After read_points every point of every block holds the decoded content of the registers at its address (None if unimplemented), and scaled points take the scale factor value of the same read; a short answer is rejected and leaves all values unchanged.", "quantifier": "every loaded model and device memory", "why_tests_cant": "all models and memories", "anchors": ["sunspec/core/client.py: ClientModel.read_points"]}
{"id": "C45", "title": "write_points writes exactly the modified points", "statement": "write_points stores the encoding of every modified point at its address, changes no other register, and clears the modified marks; unmodified points are not written.", "quantifier": "every loaded model, set of modified points and device memory", "why_tests_cant": "all subsets of modified points", "anchors": ["sunspec/core/client.py: ClientModel.write_points"]}
{"id": "C46", "title": "Written values read back", "statement": "Setting points, writing and reading the model again returns the values set (unless a value is the unimplemented pattern of its type) and all other points unchanged.", "quantifier": "every model, set of assignments and device memory", "why_tests_cant": "all combinations", "anchors": ["sunspec/core/client.py: ClientModel.write_points, read_points", "sunspec/core/device.py: Point.value_setter"]}
{"id": "C47", "title": "A failed write is retried", "statement": "If writing to the device fails, the points not written remain marked as modified so that calling write again writes them.", "quantifier": "every failure point of every write", "why_tests_cant": "all failure points", "anchors": ["sunspec/core/client.py: ClientModel.write_points, ClientPoint.write"]}
{"id": "C48", "title": "Scan finds every model of a SunSpec device", "statement": "On a device whose registers hold the SunS marker at one of the base addresses followed by a chain of model headers ended by 0xFFFF, scan adds exactly the models of the chain, in order, with their ids, addresses and lengths.", "quantifier": "every chain of models, of any number and lengths", "why_tests_cant": "unbounded chains", "anchors": ["sunspec/core/client.py: ClientDevice.scan", "sunspec/core/device.py: Device.add_model"]}
{"id": "C49", "title": "Scan terminates", "statement": "Scanning an RTU or TCP device terminates whatever the device answers.", "quantifier": "every device behaviour", "why_tests_cant": "non-termination cannot be observed by tests", "anchors": ["sunspec/core/client.py: ClientDevice.scan"]}
{"id": "C50", "title": "Scan tries every base address", "statement": "scan uses the first of the base addresses 40000, 0, 50000 at which the SunS marker is found, even if the device answers earlier ones with an error.", "quantifier": "every device (RTU, TCP or mapped)", "why_tests_cant": "all devices", "anchors": ["sunspec/core/client.py: ClientDevice.scan"]}
{"id": "C51", "title": "A device can be scanned again", "statement": "Calling scan on an already scanned device succeeds or reports a SunSpecClientError.", "quantifier": "every scanned device", "why_tests_cant": "histories", "anchors": ["sunspec/core/client.py: ClientDevice.scan"]}
{"id": "C52", "title": "Wrapper attributes expose all models in device order", "statement": "In the scripting wrapper each model name gives the single model, or a list with models of that name at indices 1.. in device order; the list of names has no duplicates and is in order of first appearance; repeating[i] is repeating block i.", "quantifier": "every list of models with any names", "why_tests_cant": "all combinations of duplicates", "anchors": ["sunspec/core/client.py: SunSpecClientDevice.__init__, SunSpecClientModelBase.__init__"]}
{"id": "C53", "title": "PICS round-trip of values", "statement": "Writing the fixed block (or one repeating block) of a device to PICS and loading it gives the same implemented values for integer and string points.", "quantifier": "every set of point values", "why_tests_cant": "all values", "anchors": ["sunspec/core/device.py: Point.to_pics, Point.from_pics, Block.to_pics, Block.from_pics"]}
{"id": "C54", "title": "PICS round-trip of repeating blocks", "statement": "Writing a model with all its repeating blocks to PICS and loading it into an empty device gives every block its own values, with unimplemented points staying unimplemented.", "quantifier": "every model and set of values", "why_tests_cant": "all combinations of implemented points per block", "anchors": ["sunspec/core/device.py: Model.to_pics, Model.from_pics, Block.to_pics, Point.from_pics"]}
{"id": "C55", "title": "Invalid PICS block indices are rejected", "statement": "A PICS repeating block whose index does not name an existing repeating block raises a SunSpecError and changes nothing.", "quantifier": "every index", "why_tests_cant": "all integers", "anchors": ["sunspec/core/device.py: Model.from_pics"]}
{"id": "C56", "title": "PICS base address is honoured", "statement": "A PICS device element with an addr attribute loads with that base address.", "quantifier": "every address", "why_tests_cant": "all addresses", "anchors": ["sunspec/core/device.py: Device.from_pics"]}
{"id": "C57", "title": "Device comparison is sound and complete", "statement": "not_equal returns False when comparing a device with itself, and returns a description whenever the models, blocks or point values differ.", "quantifier": "every pair of devices", "why_tests_cant": "all pairs", "anchors": ["sunspec/core/device.py: Device.not_equal, Model.not_equal, Block.not_equal, Point.not_equal"]}
{"id": "C58", "title": "Equal type definitions compare equal", "statement": "Two model types loaded from the same definition compare as equal, and types differing in an attribute compare as different.", "quantifier": "every definition", "why_tests_cant": "all definitions", "anchors": ["sunspec/core/device.py: PointType.not_equal, BlockType.not_equal, ModelType.not_equal"]}
{"id": "C59", "title": "Model definitions are validated", "statement": "Loading a model definition yields at most one fixed and one repeating block, blocks with pairwise distinct point ids in document order, types, access and mandatory values from the known sets, and rejects every other definition with an error.", "quantifier": "every definition document", "why_tests_cant": "all documents", "anchors": ["sunspec/core/device.py: ModelType.from_smdx, BlockType.from_smdx, PointType.from_smdx"]}
{"id": "C60", "title": "Model definitions are cached", "statement": "The second request for a model type does not read its definition again.", "quantifier": "every history of requests", "why_tests_cant": "histories", "anchors": ["sunspec/core/device.py: model_type_get"]}
{"id": "C61", "title": "Model file names and ids correspond", "statement": "model_filename_to_id(model_id_to_filename(n)) = n and distinct ids have distinct file names.", "quantifier": "every integer id", "why_tests_cant": "unbounded ids", "anchors": ["sunspec/core/smdx.py: model_id_to_filename, model_filename_to_id"]}
{"id": "C62", "title": "SunSpec data record round-trip", "statement": "Writing a data record to XML elements and reading it back preserves devices, models and points with their ids, indices, scale factors, times and values.", "quantifier": "every record", "why_tests_cant": "all records", "anchors": ["sunspec/core/data.py: SunSpecData, DeviceData, ModelData, PointData"]}
{"id": "C63", "title": "Data record builders store the arguments they are given", "statement": "model_add stores the given index and namespace; device timestamps survive a round trip.", "quantifier": "every record", "why_tests_cant": "all argument combinations", "anchors": ["sunspec/core/data.py: DeviceData.model_add, DeviceData.from_xml, to_xml"]}
{"id": "C64", "title": "Path lists are searched in order", "statement": "read returns the content of the file in the first path of the list that contains it and raises NameError only if none does.", "quantifier": "every path list and file system", "why_tests_cant": "all path lists and file systems", "anchors": ["sunspec/core/util.py: PathList.read"]}
{"id": "C65", "title": "Pretty printing preserves content", "statement": "indent changes only blank text and tails: tags, attributes, children and all non-blank text are preserved; applying it twice is the same as once.", "quantifier": "every element tree and level", "why_tests_cant": "all trees", "anchors": ["sunspec/core/util.py: indent"]}
{"id": "C66", "title": "Temporary path lists are always restored", "statement": "After a fresh_file_pathlist block, however it ends and however nested, the previous path list is in effect again; so it is after a call whose arguments are rejected.", "quantifier": "every nesting, every exit and every argument list", "why_tests_cant": "all nestings and exceptions", "anchors": ["sunspec/core/device.py: fresh_file_pathlist"]}
{"id": "C67", "title": "Default write requests respect the Modbus limit", "statement": "With the default max_count a write never sends a write-multiple-registers request for more than the 123 registers Modbus allows.", "quantifier": "every data length", "why_tests_cant": "all sizes; test doubles accept any size", "anchors": ["sunspec/core/modbus/client.py: REQ_COUNT_MAX, ModbusClientRTU.write, ModbusClientDeviceTCP.write"]}
{"id": "C68", "title": "Tracing does not change results", "statement": "Supplying a trace function does not change what read and write do.", "quantifier": "every request and device", "why_tests_cant": "all requests", "anchors": ["sunspec/core/modbus/client.py: ModbusClientRTU._read, _write, ModbusClientDeviceTCP._read, _write"]}
{"id": "C69", "title": "Map comparison reports exactly the differences", "statement": "Comparing two Modbus maps reports no difference exactly when base address, function and all blocks (offset, count, data, access) are equal, and never raises.", "quantifier": "every pair of maps", "why_tests_cant": "all pairs of maps", "anchors": ["sunspec/core/modbus/mbmap.py: ModbusMap.not_equal, ModbusMapRegs.not_equal"]}
{"id": "C70", "title": "Scanning keeps the connection state", "statement": "Scanning a TCP device leaves its connection as it was before (open if the program had connected, closed otherwise), and every failure, including a refused connection, is reported as SunSpecClientError.", "quantifier": "every server behaviour and connection state", "why_tests_cant": "depends on where in the exchange a failure happens", "anchors": ["sunspec/core/client.py ClientDevice.scan", "sunspec/core/modbus/client.py ModbusClientDeviceTCP.connect/disconnect"]}
{"id": "C71", "title": "The progress callback can stop a scan", "statement": "The progress callback is called once per model, in device order; if it returns a false value for one, scan raises SunSpecClientError and the device holds exactly the models before that one.", "quantifier": "every chain of models and every callback", "why_tests_cant": "the callback may refuse any of arbitrarily many models", "anchors": ["sunspec/core/client.py ClientDevice.scan"]}
{"id": "C72", "title": "Scanning and reading never write", "statement": "Scanning a device and reading its points send no write request to the device, whatever it answers.", "quantifier": "every device behaviour, definitions and models", "why_tests_cant": "absence of a request over all behaviours", "anchors": ["sunspec/core/client.py ClientDevice.scan, read_points, ClientModel.read_points"]}
{"id": "C73", "title": "Scan and read, end to end", "statement": "Against a Modbus RTU slave, a Modbus/TCP server or a map file that conforms to its protocol and holds a SunSpec register map, ClientDevice.scan() followed by read_points() creates one model object for every entry of the map, in order, and gives every point of every known model exactly the value its registers decode to (with the scale factor now in the device).", "quantifier": "all conforming devices on the three transports, all register contents with a map at one of the base addresses, all definitions with well-formed points, any fragmentation of the bytes on the line", "why_tests_cant": "the composition of framing, chunking, scanning, layout and decoding must hold for all register contents and every way the bytes arrive", "anchors": ["sunspec/core/client.py: ClientDevice.scan, ClientDevice.read_points, ClientModel.read_points", "sunspec/core/modbus/client.py: ModbusClientRTU.read, ModbusClientDeviceTCP.read, ModbusClientDeviceMapped.read", "sunspec/core/device.py: Model.load"]}
{"id": "C74", "title": "Writing one model does not disturb the others, end to end", "statement": "After scan() and read_points(), assigning storable values to points of one model, writing it and reading the whole device again yields the assigned values in that model and unchanged values in every other point of the device, on all three transports.", "quantifier": "all conforming devices on the three transports, all maps, all models, all sets of assigned storable values", "why_tests_cant": "the absence of cross-talk must hold for every layout of models and every combination of modified points", "anchors": ["sunspec/core/client.py: ClientModel.write_points, ClientDevice.read_points", "sunspec/core/modbus/client.py: ModbusClientRTU.write, ModbusClientDeviceTCP.write, ModbusClientDeviceMapped.write"]}
{"id": "C75", "title": "Labels, descriptions and notes", "statement": "After a model definition is loaded, the label, description and notes of the model type are the last such texts in the model elements of the strings sections for its id; those of each point type are the last such texts of its point element followed by those of the point elements for its id in these sections; sections for other model ids have no effect.", "quantifier": "every accepted definition document: any number and order of blocks, points, sections and texts", "why_tests_cant": "ranges over all documents", "anchors": ["sunspec/core/device.py: ModelType.from_smdx, PointType.from_smdx"]}
{"id": "C76", "title": "Symbols of a point", "statement": "The symbols of a loaded point type are exactly the symbol elements of its point element, one per id in the order of first occurrence, each with the text of the last element with its id as value and with the last label, description and notes given for it in the point element or in the strings sections.", "quantifier": "every accepted definition document", "why_tests_cant": "ranges over all documents; symbol objects are shared through a dictionary keyed by symbol and point id", "anchors": ["sunspec/core/device.py: PointType.from_smdx, PointType.symbol_get, ModelType.symbol_add, ModelType.symbol_get, Symbol.from_smdx"]}
{"id": "C77", "title": "Hexadecimal register files load as a readable and writable map", "statement": "Loading a hexadecimal register file (two-digit bytes separated by blanks, '#' comment lines) into a new Modbus map gives a map whose registers, from the base address on, hold the bytes of the file in order, every one of which can be read and written; a missing, empty or malformed file is rejected with ModbusMapError and leaves the map unchanged; a map that already has blocks keeps its order.", "quantifier": "every file text, map, address range and write", "why_tests_cant": "files, ranges and histories are unbounded; the failures only occur at the end of the block, whatever its size", "anchors": ["sunspec/core/modbus/mbmap.py: ModbusMap.from_hex", "sunspec/core/modbus/mbmap.py: ModbusMapRegs.read", "sunspec/core/modbus/mbmap.py: ModbusMap.read"]}
{"id": "C78", "title": "Map and PICS files are looked up where the program says", "statement": "Loading a PICS document by name uses the first file found (with content) in the path list given, then in the path list in effect, then under the name itself; loading a Modbus map by name uses the path list given, or the name itself if none is given. Loading by name is the same as loading the parsed content; if there is no such file or it is not XML, SunSpecError (ModbusMapError) is raised and the device (map) is unchanged.", "quantifier": "every file system content, path lists, name, device and parser result", "why_tests_cant": "the combinations of path lists, archives and missing or empty files are unbounded", "anchors": ["sunspec/core/device.py: Device.from_pics", "sunspec/core/modbus/mbmap.py: ModbusMap.from_xml", "sunspec/core/util.py: PathList.read"]}
{"id": "C79", "title": "Model definitions are looked up in order", "statement": "A model definition that is not loaded yet is read from the first file found (with content) in the path list in effect, then in the working directory, then in the directory of the package; a missing or malformed one is reported as SunSpecError; check_for_models succeeds iff the common model can be found with the path list it is given.", "quantifier": "every file system content, path list, model id and cache state", "why_tests_cant": "the combinations of path lists and missing, empty or malformed files are unbounded", "anchors": ["sunspec/core/device.py: model_type_get", "sunspec/core/device.py: check_for_models", "sunspec/core/smdx.py: model_id_to_filename"]}
{"id": "C80", "title": "Creating a client device either works or fails cleanly", "statement": "Creating a ClientDevice either gives a device with the transport asked for (a serial device registered with its port, a TCP device with the address, port 502 and a 2 s timeout unless given otherwise and without any traffic, a mapped device holding the map of the file) or raises SunSpecClientError without leaving a port open or registered; a device type that does not exist is an error.", "quantifier": "every device type, argument values, state of the port registry, file system content and port availability", "why_tests_cant": "argument and registry state combinations are unbounded and the failing ones leave traces only in later behaviour", "anchors": ["sunspec/core/client.py: ClientDevice.__init__", "sunspec/core/modbus/client.py: ModbusClientDeviceRTU.__init__", "sunspec/core/modbus/client.py: ModbusClientDeviceTCP.__init__", "sunspec/core/modbus/client.py: ModbusClientDeviceMapped.__init__"]}
{"id": "C81", "title": "A device uses the timeout it was created with", "statement": "Whatever devices are created and closed, requests of a device are made with the timeout it was created with (half a second for a serial device and two seconds for a TCP device without one).", "quantifier": "every history of creating and closing devices on any ports", "why_tests_cant": "histories are unbounded and the effect only shows when devices share a port", "anchors": ["sunspec/core/modbus/client.py: ModbusClientDeviceRTU.__init__", "sunspec/core/modbus/client.py: ModbusClientDeviceTCP.connect"]}
{"id": "C82", "title": "A TLS device only talks to a verified server", "statement": "With tls=True a connection succeeds only over TLS, to the configured address, to a server with a certificate signed by the configured CA and issued for that address, unless insecure_skip_tls_verify is given, in which case no verification is done; the client certificate is optional; every failure is a ModbusClientError; without tls the TLS options have no effect.", "quantifier": "every device configuration, connect timeout and network (which servers accept, which certificates they present, which files can be loaded)", "why_tests_cant": "the network is adversarial: the guarantee is about every server", "anchors": ["sunspec/core/modbus/client.py: ModbusClientDeviceTCP.__init__", "sunspec/core/modbus/client.py: ModbusClientDeviceTCP.connect"]}
{"id": "C83", "title": "An interrupted serial write leaves whole values", "statement": "Whatever goes wrong during a write over a serial line (a request or an answer lost, altered or delayed at any point), the device afterwards holds the new contents for a prefix of the registers written and its old contents everywhere else; all of them are written if the write reports success; a value of several registers is either written or not; and repeating a failed write until it succeeds leaves the device as if it had succeeded at once.", "quantifier": "every write (any length and limit), every point of failure and every line on which an acknowledgement implies execution", "why_tests_cant": "crash points and fault patterns are unbounded", "anchors": ["sunspec/core/modbus/client.py: ModbusClientRTU.write", "sunspec/core/modbus/client.py: ModbusClientRTU._write"]}
{"id": "C84", "title": "Devices sharing a serial line do not interfere", "statement": "Whatever reads and writes are made to the slaves on one line, in whatever order: every read returns what the addressed slave holds after all earlier writes to it, and a slave is not changed by what is sent to another.", "quantifier": "every line with any number of conforming slaves and every interleaving of reads and writes of any size", "why_tests_cant": "interleavings are unbounded", "anchors": ["sunspec/core/modbus/client.py: ModbusClientRTU.read", "sunspec/core/modbus/client.py: ModbusClientRTU.write"]}
{"id": "C85", "title": "Nothing left over on the line influences a later request", "statement": "Bytes that arrived on the serial port before a request is sent (surplus bytes, answers that came too late, noise) influence neither the result of the request nor the device.", "quantifier": "every content of the input buffer, request and device behaviour", "why_tests_cant": "buffer contents and histories are unbounded", "anchors": ["sunspec/core/modbus/client.py: ModbusClientRTU._read", "sunspec/core/modbus/client.py: ModbusClientRTU._write"]}
{"id": "C86", "title": "Failed reads and writes of a model leave consistent values", "statement": "Reading the points of a model changes either nothing or all of its values, which are then decoded from one complete set of answers. After a write of the modified points that fails at any moment, every byte the device holds is the old one or that of the new value of a modified point.", "quantifier": "every loaded model, set of modified points, device behaviour and point of failure", "why_tests_cant": "failures can occur at any of unboundedly many requests", "anchors": ["sunspec/core/client.py: ClientModel.read_points", "sunspec/core/client.py: ClientModel.write_points"]}
{"id": "C87", "title": "Assigning to an unscaled point converts the value or fails", "statement": "For a point without a scale factor (or with scale factor 0), point.value = v stores the integer v denotes for integer point types (an int itself, a text by Python's integer literal grammar, a finite float truncated toward zero), the text v denotes for text types, the float for float32; the point is then pending for the next write and nothing else about it changes; an object that denotes no such value raises and nothing is stored.", "quantifier": "every point type, every assigned int, text, float (including NaN and infinities) and None, every scale factor that is absent or zero", "why_tests_cant": "the assigned values range over all integers, all texts and all floats; truncation is a statement over the reals, and rejection quantifies over all texts that are not literals", "anchors": ["sunspec/core/device.py: Point.value_setter", "sunspec/core/suns.py: suns_to_int, suns_to_str, suns_to_float, suns_point_type_info"]}
{"id": "C88", "title": "Adding registers to a map", "statement": "ModbusMap.regs_add(addr, count=n) at or after the end of the map adds exactly n registers that read as zero at exactly those addresses and changes no other register; anywhere else it raises ModbusMapError and changes nothing; the new registers have the access mode asked for; it works the same on maps loaded from a file.", "quantifier": "every map with whole blocks (in particular any sequence of additions to a new map), every address, offset, count and access mode", "why_tests_cant": "the result depends on the whole history of previous additions and on whether the new range touches the last block; all addresses must be shown unchanged", "anchors": ["sunspec/core/modbus/mbmap.py: ModbusMap.regs_add", "sunspec/core/modbus/mbmap.py: ModbusMapRegs.append"]}
{"id": "C89", "title": "The report of scripts/suns.py is complete and shows the values", "statement": "The report printed by suns.py has, for every model of the device in order, a heading with its label and id and exactly one line for each point that has a value (none for points without one), in block and point order, giving the block number, label, id, units and a text from which the value can be read back (bit fields in hexadecimal, texts without NUL padding).", "quantifier": "every device content: all models, blocks, point types, labels, units, scale factors and values", "why_tests_cant": "the content ranges over all lists of models and all values; completeness (one line per value, none missing, none extra) must hold for all of them", "anchors": ["scripts/suns.py: report loop", "sunspec/core/device.py: Point.value_getter"]}
{"id": "C90", "title": "What is read from a device survives PICS", "statement": "After scanning a device and reading its points, saving it with to_pics and loading the document with from_pics gives a device with the same models in order, whose points have the values (and scale factors) that the device's registers decode to.", "quantifier": "every device memory with a SunSpec map, every set of model definitions, RTU and TCP devices, any point values", "why_tests_cant": "all memories, definitions and values, through five layers", "anchors": ["sunspec/core/client.py: ClientDevice.scan, ClientDevice.read_points", "sunspec/core/device.py: Device.to_pics, Device.from_pics, Point.to_pics, Point.from_pics"]}
{"id": "C91", "title": "Reading a data record adds to the object", "statement": "Reading a data exchange record (or device or model element) into an object that already has devices (models, points) keeps them and appends those of the document in document order; it fails exactly when reading into a new object fails, and a stream of records read into one object leaves all devices in order.", "quantifier": "every object state, every element, every sequence of records", "why_tests_cant": "all prior contents and documents", "anchors": ["sunspec/core/data.py: SunSpecData.from_xml, DeviceData.from_xml, ModelData.from_xml"]}
{"id": "C92", "title": "A device loaded from its PICS document compares equal to the original", "statement": "After a device is saved with to_pics and loaded again with from_pics, Device.not_equal between the original and the loaded device answers (raises nothing), and reports no difference.", "quantifier": "all devices whose models have loaded definitions, all point values, all numbers of repeating blocks, all memory contents a device was read from", "why_tests_cant": "The comparison looks at every value and scale factor of every point; whether a difference is reported depends on which points are implemented, on where their scale factor points are and on the values there.", "anchors": ["sunspec/core/device.py: Device.not_equal, Device.to_pics, Device.from_pics, Block.from_pics, Point.not_equal", "sunspec/core/client.py: ClientModel.read_points"]}
{"id": "C93", "title": "A Modbus map loaded from its own document compares equal", "statement": "ModbusMap.to_xml followed by from_xml into a new map gives a map for which not_equal against the original reports no difference.", "quantifier": "all maps with whole register blocks, base addresses given as numbers or texts, any access flags and contents", "why_tests_cant": "depends on how every map was made (constructor, document with or without address) and on every register block", "anchors": ["sunspec/core/modbus/mbmap.py: ModbusMap.to_xml, ModbusMap.from_xml, ModbusMap.not_equal, ModbusMapRegs.not_equal"]}
{"id": "C94", "title": "An interrupted TCP write is all or nothing, and success means stored", "statement": "Whatever goes wrong during a write over TCP (refused connection, lost request, lost or refused answer, timeout), the device afterwards holds either all of the data or what it held before; if the write reports success the data is stored; a write retried after failures ends as if it had succeeded at once; writing a model's points leaves only old bytes and bytes of new values.", "quantifier": "all servers and failure points, all states of the connection, all data and addresses, any number of retries", "why_tests_cant": "every point at which a connection can fail, for every server behaviour and history of failures", "anchors": ["sunspec/core/modbus/client.py: ModbusClientDeviceTCP.write, _write, connect", "sunspec/core/client.py: ClientModel.write_points"]}
{"id": "C95", "title": "Scripts of assignments through the wrapper, from scanning to reading back", "statement": "After constructing the scripting device and reading it, any sequence of assignments to attributes of one model (m.A = v, m.repeating[i].B = w) whose values the registers can hold succeeds; m.write() then succeeds, and after reading the whole device again every attribute of that model shows what was assigned to it last, every other attribute shows what it showed before, and all other models are unchanged. Integers assigned to unscaled points, and values that a register value stands for on scaled points, read back exactly. Assigning to a name that is no point is silently ignored; a repeating block that does not exist is an IndexError.", "quantifier": "all conforming devices on the three transports, all register maps, all models, all sequences of assignments (any length, repeated targets, fixed and repeating blocks)", "why_tests_cant": "order of assignments, repeated targets, layouts of points and groups of contiguous writes combine without bound", "anchors": ["sunspec/core/client.py: SunSpecClientModelBase._get_property, _set_property, write, SunSpecClientBlockBase._get_property, _set_property", "sunspec/core/client.py: ClientModel.write_points, read_points", "sunspec/core/device.py: Point.value"]}
{"id": "C96", "title": "Requests on serial devices in any history of opens and closes", "statement": "In any history of opening, closing, reading and writing RTU devices on any serial ports, a request on a device in use is sent on the device's own port, to its own slave id, with the timeout in force there (the last one given on that port), and returns what the transport gives; requests on one port never affect results or devices on another port. Once a device is closed it sends nothing and requests on it are reported as a Modbus client error; each device keeps the timeout it was opened with.", "quantifier": "all histories of opens (successful or not), closes, reads and writes of any length on any number of ports, all device behaviours, addresses, counts and data", "why_tests_cant": "port objects are shared between devices through a global registry, so what a request does depends on the whole history of opens and closes; a test fixes one history", "anchors": ["sunspec/core/modbus/client.py: modbus_rtu_client, modbus_rtu_client_remove, ModbusClientRTU.__init__, ModbusClientRTU.close, ModbusClientDeviceRTU.__init__, ModbusClientDeviceRTU.close, ModbusClientDeviceRTU.read, ModbusClientDeviceRTU.write"]}
{"id": "C97", "title": "A program gets the same results on every transport", "statement": "Let a Modbus RTU slave, a Modbus/TCP server and a map file hold the same registers. Any program using a ClientDevice (scan, read_points of the device or of a model, write_points, point writes, raw read and write, getting and assigning values; each operation may depend on all earlier results, exceptions included), whose requests are for registers that exist and whose writes are no longer than the device takes in one request, gets the same results and exceptions, builds the same model objects, and leaves the same registers on all three. Scanning a SunSpec map and reading all its points always stays within these limits.", "quantifier": "all programs (strategies choosing the next operation from all earlier results), all numbers of steps, all register contents, all conforming RTU slaves, TCP servers and maps", "why_tests_cant": "Quantifies over all programs and all register contents on three transports; tests run a few fixed sessions against one fake device each.", "anchors": ["sunspec/core/client.py:ClientDevice", "sunspec/core/client.py:ClientModel.read_points", "sunspec/core/client.py:ClientModel.write_points", "sunspec/core/client.py:ClientPoint.write", "sunspec/core/modbus/client.py:ModbusClientDeviceRTU", "sunspec/core/modbus/client.py:ModbusClientDeviceTCP", "sunspec/core/modbus/client.py:ModbusClientDeviceMapped"]}
{"id": "C98", "title": "The text of a device shows all its values", "statement": "str() of a Device never raises and tells every model id, every point's id, implementation flag, address, value and scale factor: two devices with the same text agree in all of them. str() of a SunSpecClientDevice shows, for every model in order, its name and id and one line with the scaled value of every point that has a value, block by block.", "quantifier": "all devices (lists of models with any blocks, points and values); for the first part ids without blanks and value texts without line feeds", "why_tests_cant": "Faithfulness of a text is a statement about all pairs of devices; tests print a few devices.", "anchors": ["sunspec/core/device.py:Device.__str__", "sunspec/core/device.py:Model.__str__", "sunspec/core/device.py:Block.__str__", "sunspec/core/device.py:Point.__str__", "sunspec/core/client.py:SunSpecClientDevice.__str__", "sunspec/core/client.py:SunSpecClientModelBase.__str__", "sunspec/core/client.py:SunSpecClientBlockBase.__str__"]}
{"id": "C99", "title": "IPv6 address texts mean what they say", "statement": "An IPv6 address text assigned to an ipv6addr point and written is stored as the sixteen bytes of that address (in any of the textual forms of RFC 4291), any other text is rejected with an exception, and the text that reading such a point gives is an IPv6 address text.", "quantifier": "all texts, all register contents of an ipv6addr point", "why_tests_cant": "Quantifies over all address texts; the unit tests use one text in the library's own format.", "anchors": ["sunspec/core/util.py:ipv6addr_to_data", "sunspec/core/util.py:data_to_ipv6addr", "sunspec/core/suns.py:suns_point_type_info"]}
{"id": "C100", "title": "Wrapper objects of a device do not depend on devices created later", "statement": "The model objects of a SunSpecClientDevice keep their list of points, their text and their attributes whatever other SunSpecClientDevice objects are created afterwards, also under other model definitions.", "quantifier": "every device, and every sequence of later device creations, each with its own loadable model definitions", "why_tests_cant": "all histories of device creations and definitions", "anchors": ["sunspec/core/client.py: model_class_get, SunSpecClientDevice.__init__, SunSpecClientModelBase"]}
{"id": "C101", "title": "Failures of the serial port are reported as client errors", "statement": "Every failure of a serial port during a request (old input cannot be discarded, sending fails, the cable is unplugged while the response is awaited, the response is late, cut short, corrupted or a Modbus exception) makes read, write and scan of a device raise SunSpecClientError.", "quantifier": "all ports (any sequence of failures of flushInput, write and read), slave ids, addresses, register counts and data", "why_tests_cant": "the fake serial port of the tests never raises; failures can occur at every point of every request", "anchors": ["sunspec/core/modbus/client.py: ModbusClientRTU._read, ModbusClientRTU._write, ModbusClientRTU.read, ModbusClientRTU.write", "sunspec/core/client.py: ClientDevice.read, ClientDevice.write, ClientDevice.scan"]}
{"id": "C102", "title": "Making the wrapper of a model changes nothing and exposes every point, whatever the points are called", "statement": "For every model definition, creating the scripting wrapper of a model leaves the values and the modified marks of all its points as they are; afterwards m.<id> reads and assigns the point of that id, m.read() and m.write() work, m.name is the name of the model, and m.repeating (also under the block's name) lists the wrappers of the repeating blocks.", "quantifier": "all model definitions (any names of points and blocks), all models loaded from them with any values, all names", "why_tests_cant": "point and block ids come from definition files a user can add; the clashes depend on the attributes the wrapper classes happen to use", "anchors": ["sunspec/core/client.py: SunSpecClientModelBase.__init__, SunSpecClientModelBase._get_property, SunSpecClientModelBase._set_property, SunSpecClientBlockBase.__init__, model_class_get"]}
{"id": "C103", "title": "TCP devices used from several threads: every call takes effect at one moment", "statement": "When several threads call read and write of Modbus TCP devices at the same time, then under every schedule of the threads, and however the responses arrive in pieces, the calls look as if each took effect at one moment between its start and its return: a read returns registers that were on the device together at that moment, a write stores exactly its data then, and every call returns once its thread has had enough turns.", "quantifier": "all numbers of threads, all calls within the Modbus limits, all schedules and fragmentations of the responses, all contents of the server, all conforming servers", "why_tests_cant": "the outcome depends on the interleaving of the steps of the threads, of which there are unboundedly many; a test sees a few of them", "anchors": ["sunspec/core/modbus/client.py: ModbusClientDeviceTCP.read, ModbusClientDeviceTCP.write, ModbusClientDeviceTCP._read, ModbusClientDeviceTCP._write, ModbusClientDeviceTCP.connect, ModbusClientDeviceTCP.disconnect"]}
{"id": "C104", "title": "A simulated device can be saved and resumed at any time", "statement": "Stop any program that uses a mapped device (scan, reads, assignments, writes, raw requests, failing ones included) at any point, save the Modbus map with to_xml and load it into a new map: every further program, with the old device object or a new one, gets the same results and exceptions from the loaded map as from the original, and leaves the same registers; saving the loaded map gives the same document.", "quantifier": "all maps with whole register blocks, all programs before and after (strategies that see all earlier results), all points of interruption, all model definitions", "why_tests_cant": "programs, their histories and the points at which they are stopped are unbounded; a test resumes one of them", "anchors": ["sunspec/core/modbus/mbmap.py: ModbusMap.to_xml, ModbusMap.from_xml, ModbusMap.read, ModbusMap.write", "sunspec/core/modbus/client.py: ModbusClientDeviceMapped", "sunspec/core/client.py: ClientDevice, ClientModel, ClientPoint"]}
{"id": "C105", "title": "The suns.py program prints every value of the device, the same on every transport", "statement": "Running scripts/suns.py on a device (serial, TCP, or a map file) whose registers hold a SunSpec map of known models prints the time and then, for every model in order, its heading and one line with the decoded value of every implemented point, and the output is identical line by line for a serial device, a TCP device and a map file that hold the same registers. If the device cannot be used (unknown -t option, no map file name, serial port that cannot be opened, no SunSpec map at any base address) it prints one error line and exits with status 1. Any other failure should do so, too.", "quantifier": "every register memory, SunSpec map and set of model definitions; every conforming serial slave, TCP server and map file holding the registers; every combination of options", "why_tests_cant": "the output depends on the whole register memory, the model definitions and on how the device chops its answers; a test shows one device on one transport", "anchors": ["scripts/suns.py: main program", "sunspec/core/client.py: SunSpecClientDevice.__init__, read", "sunspec/core/client.py: ClientDevice.__init__, scan, read_points"]}
{"id": "C106", "title": "Values read from a device that changes meanwhile were held by the device", "statement": "Measurements change while they are read. When the points of a model are read from a device whose registers change on their own between Modbus requests, the read succeeds, every point (and every scale factor point) gets the value its registers held at one moment during the read (never a mixture of two moments), and a model of at most 125 registers is read from a single moment altogether, so that values and scale factors belong together. The value shown for a scaled point should have been held by the device at some moment for longer models, too.", "quantifier": "every loaded model, every serial slave or TCP server that answers reads with its registers of the moment, every way the registers change between requests", "why_tests_cant": "tests read from a device that holds still; the claim is about every interleaving of register changes with the requests of a read", "anchors": ["sunspec/core/client.py: ClientModel.read_points", "sunspec/core/device.py: Model.load (read_blocks)", "sunspec/core/modbus/client.py: ModbusClientRTU.read, ModbusClientDeviceTCP.read"]}
{"id": "C107", "title": "A device whose measurements change can be scanned and read", "statement": "A device whose SunSpec map (marker, model ids, lengths) stays the same while all other registers change on their own between any two Modbus requests is scanned completely: the scan succeeds, finds the base address and one model object for every entry of the map, each loaded from its definition or carrying the error why it could not be. Reading the whole device then succeeds, and the registers shown for each point were all held by the device at one moment of this reading (for models of at most 125 registers one moment for the whole model, so that scaled values belong together, too; see C106 for longer ones).", "quantifier": "every serial slave or TCP server that answers reads with its registers of the moment, every way the registers outside the map headers change between requests, every map and set of model definitions whose points have at most 125 registers", "why_tests_cant": "tests scan devices that hold still; the claim is about every history of register changes during a scan and the following read", "anchors": ["sunspec/core/client.py: ClientDevice.scan, ClientDevice.read_points, ClientModel.read_points", "sunspec/core/modbus/client.py: ModbusClientRTU.read, ModbusClientDeviceTCP.read"]}
{"id": "C108", "title": "Written documents have the published formats", "statement": "Documents the library writes can be read by other programs: a PICS device element, a Modbus map and a data record have exactly the element names, attribute names and fixed attribute values of the published formats, one element for every model, block, point, register block and device in order (for PICS: the points in the order of their definition, without pads, unimplemented points marked impl=false and without text, values as the decimal text or the text of their base value, without trailing NULs), and nothing else.", "quantifier": "all devices whose models were loaded (known or unknown) and whose points have values, all maps with registers, all data records of texts and numbers; both settings of single_repeating", "why_tests_cant": "a round trip through the library's own reader does not notice a wrong name, and a test compares a few documents; the claim is about every document", "anchors": ["sunspec/core/device.py: Device.to_pics, Model.to_pics, Block.to_pics, Point.to_pics", "sunspec/core/pics.py", "sunspec/core/modbus/mbmap.py: ModbusMap.to_xml", "sunspec/core/data.py: SunSpecData.to_xml, DeviceData.to_xml, ModelData.to_xml, PointData.to_xml"]}
{"id": "C109", "title": "Serial devices on different ports can be used from several threads", "statement": "If several threads read and write serial devices at the same time and no two of them use the same port, then whatever the interleaving every call does and returns what it does in a program with one thread, for every behaviour of the lines; with conforming slaves it returns the right registers. On one port the same holds if the calls are made one at a time (the documented restriction), and this restriction is needed.", "quantifier": "all schedules of all sets of threads, all calls (of any number of requests), slaves, lines and faults of the lines", "why_tests_cant": "the claim is about every interleaving of the steps of the calls; a test sees a few", "anchors": ["sunspec/core/modbus/client.py: ModbusClientRTU.read, ModbusClientRTU._read, ModbusClientRTU.write, ModbusClientRTU._write, ModbusClientDeviceRTU"]}
{"id": "C110", "title": "Timestamps of data records are ISO 8601 and sort by time", "statement": "A time given to DeviceData.timestamp_add or device_add (seconds since 1970, whole or fractional, before or after 1970) in a year with four digits is stored as the text YYYY-MM-DDTHH:MM:SSZ of its Gregorian date and time of day in UTC, is written as the 't' attribute of the device, and such texts sort like the times: a later second gives a later text and equal texts mean the same second. Without an argument the clock is used.", "quantifier": "all whole and floating point times between the years 1000 and 9999, all records", "why_tests_cant": "a test compares a few dates; the claim covers every second of nine thousand years, with all leap years, and the order of all pairs", "anchors": ["sunspec/core/data.py: DeviceData.timestamp_add, DeviceData.__init__, SunSpecData.device_add, DeviceData.to_xml"]}
{"id": "C111", "title": "Read-only points and registers are not written", "statement": "A point whose definition says access='r' is never stored to the device, and a register block of a Modbus map marked access='r' is never changed by a write: a write() sends only registers of modified points, none of them read-only, whatever the device answers and wherever it fails.", "quantifier": "all model definitions and loaded models, all modified points, all devices and all points of failure, all maps and writes", "why_tests_cant": "a test writes a few models to a well behaved device; the claim covers every set of modified points and every failure of a request", "anchors": ["sunspec/core/device.py: PointType.from_smdx, Point.value", "sunspec/core/client.py: ClientModel.write_points", "sunspec/core/modbus/mbmap.py: ModbusMap.write, ModbusMapRegs.write"]}
{"id": "C112", "title": "Documents survive being stored as text and loaded again", "statement": "A PICS document, a Modbus map or a data record that is written as text (ET.tostring, to_xml_str), indented or not, and loaded from that text (from a file, or with data_record=) gives what loading the element itself gives: same models, points and values, same registers, same record, whatever characters the ids and string values contain.", "quantifier": "all element trees; all devices, maps and records; both settings of pretty_print; all files and path lists that yield the text", "why_tests_cant": "Quantifies over every tree and every character sequence in ids, attributes and values (escaping, references, control characters, line ends, characters outside ASCII); tests use a few ASCII documents.", "anchors": ["sunspec/core/data.py:SunSpecData.from_xml", "sunspec/core/data.py:SunSpecData.to_xml_str", "sunspec/core/device.py:Device.from_pics", "sunspec/core/device.py:Device.to_pics", "sunspec/core/modbus/mbmap.py:ModbusMap.from_xml", "sunspec/core/modbus/mbmap.py:ModbusMap.to_xml", "sunspec/core/util.py:indent"]}
{"id": "C113", "title": "Threads that use different serial ports can open and close devices freely", "statement": "The serial clients are kept in one global registry, but threads that use different serial ports do not disturb each other when they construct and close devices: under every schedule, what each constructor and close call returns or raises, and which ports are open and registered, is as if the thread had run alone; between its calls a thread's port is open exactly while the thread uses a device on it; no call ever waits for another thread. Threads that share a port get the behaviour of a single-threaded program if their open and close calls are made one at a time.", "quantifier": "all numbers of threads, all programs of constructor and close calls, all schedules of the single steps, all outcomes of opening the port, all moments", "why_tests_cant": "Quantifies over all interleavings of the steps of all calls; a test sees one schedule and races show only in rare ones.", "anchors": ["sunspec/core/modbus/client.py:modbus_rtu_client", "sunspec/core/modbus/client.py:modbus_rtu_client_remove", "sunspec/core/modbus/client.py:ModbusClientRTU.open", "sunspec/core/modbus/client.py:ModbusClientRTU.close", "sunspec/core/modbus/client.py:ModbusClientRTU.add_device", "sunspec/core/modbus/client.py:ModbusClientRTU.remove_device", "sunspec/core/modbus/client.py:ModbusClientDeviceRTU.__init__", "sunspec/core/modbus/client.py:ModbusClientDeviceRTU.close"]}
{"id": "C114", "title": "Long reads and programs of TCP calls from several threads", "statement": "Threads that each use their own TCP device can read any number of registers and make any number of calls one after the other, at the same time. Whatever the schedule and however the responses arrive, a read returns exactly the registers asked for, in portions of max_count registers, each portion as it was at one moment during that call, the moments in order; so a read of registers nobody writes during the call returns exactly what they hold. A write stores its data at exactly one moment during the call, and nothing but such a write ever changes a register. Every thread finishes its program after a bounded number of its own turns, whatever the others do.", "quantifier": "all numbers of threads, all programs of reads and writes within the Modbus limits, all max_count settings, all schedules of the single steps, all sizes of the pieces in which responses arrive, connected or not", "why_tests_cant": "Quantifies over all interleavings of the steps of all calls of all programs; a test sees one schedule.", "anchors": ["sunspec/core/modbus/client.py:ModbusClientDeviceTCP.read", "sunspec/core/modbus/client.py:ModbusClientDeviceTCP._read", "sunspec/core/modbus/client.py:ModbusClientDeviceTCP.write", "sunspec/core/modbus/client.py:ModbusClientDeviceTCP._write", "sunspec/core/modbus/client.py:ModbusClientDeviceTCP.connect", "sunspec/core/modbus/client.py:ModbusClientDeviceTCP.disconnect"]}
{"id": "C115", "title": "Scaled values are the register value times the power of ten", "statement": "If math.pow(10, sf) is within two units in the last place of the real number 10^sf, then reading the value of a scaled point gives the register value times 10^sf with a relative error of at most 2^-50, for registers of every width; assigning a float stores an integer within one half (plus that relative error) of the float divided by 10^sf; assigning the float nearest to k * 10^sf, or the integer k * 10^sf, stores exactly k; a value just read and assigned again stores the same register value; and different register values of up to 50 bits show as different values.", "quantifier": "every register value, every assigned finite float or integer, every scale factor from -300 to 280, every math.pow of that accuracy", "why_tests_cant": "Quantifies over all doubles, all register values and all scale factors; rounding errors show for particular values only.", "anchors": ["sunspec/core/device.py:Point.value", "sunspec/core/device.py:Point.value_getter", "sunspec/core/device.py:Point.value_setter"]}
{"id": "C116", "title": "Float values survive as text, with Python's own texts of floats", "statement": "float(text) gives the binary64 number nearest to the real number a decimal text denotes, and float(str(f)) is f for every float f other than NaN. So the text of a value read from float32 registers denotes exactly these registers: in a PICS document, in a map document and when it is assigned to a float point. What is read from a device, written to a file as a PICS document and loaded again has the same float values, with no assumption about Python's texts of floats.", "quantifier": "every float (binary64 number or infinity), every decimal text with blanks, sign, fraction and exponent, every content of float registers, every device read by a scan (points without a value as in C54 and C90)", "why_tests_cant": "There are 2^64 floats and infinitely many texts; shortest decimal texts and roundings fail, if at all, for isolated values (powers of two, subnormals, ties).", "anchors": ["sunspec/core/suns.py:suns_to_str", "sunspec/core/suns.py:suns_to_float", "sunspec/core/device.py:Point.to_pics", "sunspec/core/device.py:Point.from_pics", "sunspec/core/device.py:Point.value", "sunspec/core/modbus/mbmap.py:ModbusMap.from_xml_element"]}
{"id": "C117", "title": "Decimal texts of scaled values store the register they denote", "statement": "Assigning to a point with a scale factor sf the text of the decimal number k * 10^sf, however it is written (sign, blanks, leading and trailing zeros, exponent), stores exactly k in the register. The text str(point.value) of a register value n is a decimal text of n * 10^sf to 49 bits, and assigning this text to the point again stores n; so different register values are shown as different texts.", "quantifier": "every scale factor other than 0, every register value of up to 47 (store) or 50 (show) bits, every decimal text of the number, every math.pow accurate to a unit in the last place", "why_tests_cant": "There are 2^47 register values for each scale factor and infinitely many texts of each; a wrong rounding shows up for isolated pairs only.", "anchors": ["sunspec/core/device.py:Point.value_getter", "sunspec/core/device.py:Point.value_setter", "sunspec/core/device.py:Point.value", "sunspec/core/suns.py:suns_to_float"]}
{"id": "C118", "title": "A scaled value is the float of the decimal number it stands for", "statement": "The value of a point with register n and scale factor sf equals the float one writes for the decimal number n * 10^sf: with sf = -1 and register 3, point.value == 0.3.", "quantifier": "every scale factor, every register value", "why_tests_cant": "Equality of floats fails for isolated register values only (3 with scale factor -1, but not 1 or 2).", "anchors": ["sunspec/core/device.py:Point.value_getter", "sunspec/core/device.py:Point.value_setter", "sunspec/core/device.py:Point.value", "sunspec/core/suns.py:suns_to_float"]}
{"id": "C119", "title": "The printed text of a model definition tells how its devices are read", "statement": "str() of a model type shows its id and length and, block by block in order, one line for every point with its id, offset, type, length, scale factor, access and mandatory setting: two definitions have the same text exactly if they agree in all of these. Models loaded from two definitions with the same text have the same points at the same addresses, and reading them from any device makes the same requests and gives the same values and errors.", "quantifier": "all model definitions whose names contain no blanks or line feeds and that have no scale factor called None, all models, devices and device states", "why_tests_cant": "It compares all pairs of definitions and all register contents; an attribute that is left out of the text or used while reading without being shown is found only by the pair that differs in it.", "anchors": ["sunspec/core/device.py:ModelType.__str__", "sunspec/core/device.py:BlockType.__str__", "sunspec/core/device.py:PointType.__str__", "sunspec/core/device.py:Model.load", "sunspec/core/client.py:ClientModel.read_points"]}
{"id": "C120", "title": "A mapped device prints its map exactly when a request fails for want of registers", "statement": "Reading a Modbus map prints the text of the map once if the read raises ModbusMapError for missing registers and prints nothing otherwise. Whatever a program does with a MAPPED ClientDevice, its results do not depend on the printing, and what is printed is the text of the map, always the same, once for every request for a register the map does not have (or for a negative number of registers), and nothing else; a program that stays inside the map prints nothing. The text tells the slave id, function, base address and the offset, count and access of every block, and none of the data: two maps have the same text exactly if they agree in these.", "quantifier": "all maps for single reads; for programs all maps of whole blocks and all programs on a mapped device, each operation depending on all earlier results; all pairs of maps whose base address and access texts have no line feeds", "why_tests_cant": "Output to the terminal is rarely checked, and what is printed depends on the whole history of requests, including those that scanning, loading and reading models make.", "anchors": ["sunspec/core/modbus/mbmap.py:ModbusMap.read", "sunspec/core/modbus/mbmap.py:ModbusMap.__str__", "sunspec/core/modbus/mbmap.py:ModbusMapRegs.__str__", "sunspec/core/modbus/client.py:ModbusClientDeviceMapped.read", "sunspec/core/client.py:ClientDevice.scan", "sunspec/core/client.py:ClientDevice.read"]}
{"id": "C121", "title": "What a path list holds is told by what was added to it", "statement": "In any program that makes lists and PathLists, adds paths, reads files and prints, reading from a PathList made without a list searches exactly the paths added to it, in the order they were added, and no path added to another one; a PathList made from a list always searches what that list holds: its first items, what the program appended to it, and what was added to any PathList made from it. Paths added at the end change the outcome of a read only if the file was not found before. str() of a path list is a Python list display of string literals that denote its paths, so two path lists with the same text have the same paths in the same order.", "quantifier": "all programs of any length over any number of lists and PathLists, all paths and file names, all file systems, which may change between operations; all sets of printable characters; texts of Unicode characters", "why_tests_cant": "A default argument or list that is shared by accident, or copied where it should be shared, shows only in particular orders of operations on several objects.", "anchors": ["sunspec/core/util.py:PathList.__init__", "sunspec/core/util.py:PathList.add", "sunspec/core/util.py:PathList.read", "sunspec/core/util.py:PathList.__str__"]}
{"id": "C122", "title": "Two devices print the same text only if their values are the same", "statement": "If two devices print the same text, then they have the same number of models, blocks and points, and every point shown has the same value and the same scale factor in both: no two values of one point, whole numbers, floats or texts, None included, are printed alike. So a change of any value or scale factor that is shown changes the text of the device.", "quantifier": "all pairs of devices (any number of models, blocks and points) whose values are place by place of one kind or None, with points both scaled or both not; floats are any binary64 floats; texts of points have no line feed or layout that imitates the next point, and are not the text None", "why_tests_cant": "It is injectivity of a text over all pairs of devices and all floats; a printing that drops digits of a float or a scale factor shows only for particular pairs of values.", "anchors": ["sunspec/core/device.py:Device.__str__", "sunspec/core/device.py:Model.__str__", "sunspec/core/device.py:Block.__str__", "sunspec/core/device.py:Point.__str__", "sunspec/core/suns.py:suns_to_str"]}
