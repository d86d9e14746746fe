{"id": "C01", "title": "Packet round trip (unencrypted)", "statement": "Encoding any well-formed unencrypted Package (flag fields of the right width, numeric fields in range, a ServiceDataSet body for an APPDATA packet or a PtResponse body for a RESPONSE packet whose own encoding round-trips, encoded body of 1..65535 bytes, HeaderLength either 0 or the true header length) succeeds, and decoding the bytes into a fresh Package succeeds with result code 0 and returns the same packet, with HeaderLength, FrameDataLength and both checksums filled in.", "quantifier": "every Package value satisfying the stated field ranges, with and without routing fields, any number of records and subrecords", "why_tests_cant": "the space of packets is unbounded; tests exercise three literal packets", "anchors": ["libs/egts/egts_pkg.go: Package.Encode, Package.Decode"]}
{"id": "C02", "title": "Packet wire layout", "statement": "The bytes produced by Package.Encode are exactly: PRV, SKID, one flag byte whose bits are PRF(7..6) RTE(5) ENA(4..3) CMP(2) PR(1..0), HL, HE, FDL little-endian, PID little-endian, PT, then PRA, RCA (little-endian) and TTL if and only if RTE is 1, then CRC-8 of everything before it, then (if the body is non-empty) the body followed by its CRC-16 little-endian.", "quantifier": "every Package with flag strings of the right width and every body", "why_tests_cant": "a test compares literal byte strings; the layout must hold for every field value and both header forms", "anchors": ["libs/egts/egts_pkg.go: Package.Encode"]}
{"id": "C03", "title": "Encrypted round trip", "statement": "With a SecretKey whose Decode inverts its Encode, a Package with a non-zero encryption flag encoded with that key and decoded with that key returns the same packet, and the bytes on the wire after the header are the ciphertext, not the plaintext encoding.", "quantifier": "every packet and every key pair satisfying Decode(Encode x) = x", "why_tests_cant": "the key is an arbitrary user-supplied implementation", "anchors": ["libs/egts/egts_pkg.go: SecretKey, Options, Package.Encode, Package.Decode"]}
{"id": "C04", "title": "Encrypted packets are refused without a key", "statement": "When the encryption flag is not 00 and no secret key is configured, Encode of a packet with a body returns an error and no bytes, and Decode of any input never returns success; an encrypted body is never parsed as plaintext.", "quantifier": "every packet and every byte string", "why_tests_cant": "must hold for all inputs, including malformed ones", "anchors": ["libs/egts/egts_pkg.go: errSecretKey, Package.Encode, Package.Decode"]}
{"id": "C05", "title": "Frame data length equals the body length", "statement": "The FDL field emitted by Encode is the number of body bytes emitted, and the frame has HL + FDL + 2 bytes (HL when there is no body).", "quantifier": "every Package and body, including bodies longer than 65535 bytes", "why_tests_cant": "the failing region starts at 65536-byte bodies, which no test builds", "anchors": ["libs/egts/egts_pkg.go: Package.Encode"]}
{"id": "C06", "title": "Header corruption is always detected", "statement": "Take any accepted frame. Changing the header bytes covered by the header checksum, in any way confined to 8 consecutive bits or flipping an odd number of bits, while leaving the length byte alone, makes Decode return an error; it never returns success.", "quantifier": "every accepted frame, every burst position and pattern, every odd error pattern", "why_tests_cant": "combinatorially many corruptions of unboundedly many frames", "anchors": ["libs/egts/crc.go: crc8", "libs/egts/egts_pkg.go: Package.Decode"]}
{"id": "C07", "title": "Body corruption is always detected", "statement": "Take any accepted frame. Changing body bytes in any way confined to 16 consecutive bits, or flipping any odd number of body bits, or flipping two body bits fewer than 32767 positions apart, makes Decode return an error; it never returns success.", "quantifier": "every accepted frame of any length and every such error pattern", "why_tests_cant": "combinatorially many corruptions of unboundedly many frames", "anchors": ["libs/egts/crc.go: crc16", "libs/egts/egts_pkg.go: Package.Decode"]}
{"id": "C08", "title": "Decode never panics", "statement": "Package.Decode returns (a code and possibly an error) for every byte string instead of panicking.", "quantifier": "every byte string, every slice capacity, every prior receiver state", "why_tests_cant": "the input space is all byte strings; a single bad header is enough", "anchors": ["libs/egts/egts_pkg.go: Package.Decode lines 124 and 163"]}
{"id": "C09", "title": "Decode terminates with bounded recursion", "statement": "Decoding (of packets, record sets and subrecord sets) terminates on every input, although record confirmations recursively decode their trailing bytes as records and short inputs are zero-padded up to the declared length; the nesting depth never exceeds the number of non-zero input bytes plus one.", "quantifier": "every byte string", "why_tests_cant": "non-termination cannot be established by running", "anchors": ["libs/egts/egts_sr_response.go: SrResponse.Decode", "libs/egts/service_data_records.go: ServiceDataSet.Decode", "libs/egts/record_data.go: RecordDataSet.Decode"]}
{"id": "C10", "title": "Result codes report the cause of the failure", "statement": "The code returned by Package.Decode identifies the failure: 131 when the header is cut short, 137 for a bad header checksum, 132 for a missing body, 133 for an unknown packet type, 129 for an undecryptable or undecodable body, 138 for a bad body checksum, and 0 exactly when there is no error.", "quantifier": "every byte string", "why_tests_cant": "tests never look at the code of a failing Decode", "anchors": ["libs/egts/egts_pkg.go: Package.Decode", "libs/egts/errors.go"]}
{"id": "C11", "title": "Accepted frames carry correct checksums", "statement": "If Decode succeeds then the byte at the header checksum position equals the CRC-8 of the first HL-1 bytes, the stored body checksum equals the CRC-16 of the FDL bytes at offset HL, and the decoded numeric header fields are exactly the little-endian values at their wire offsets.", "quantifier": "every accepted byte string", "why_tests_cant": "soundness over all inputs", "anchors": ["libs/egts/egts_pkg.go: Package.Decode"]}
{"id": "C12", "title": "Encoding a packet twice gives the same bytes", "statement": "Encode only fills in HeaderLength and FrameDataLength of its receiver; encoding the same Package again (after the first call updated it) yields identical bytes, and the records inside are not modified.", "quantifier": "every Package", "why_tests_cant": "must hold for every history of encodes of one value", "anchors": ["libs/egts/egts_pkg.go: Package.Encode", "libs/egts/service_data_records.go: ServiceDataSet.Encode", "libs/egts/record_data.go: RecordDataSet.Encode"]}
{"id": "C13", "title": "Header-only packets decode", "statement": "A packet encoded with no body (ServicesFrameData nil) can be decoded by Decode.", "quantifier": "every header-only packet", "why_tests_cant": "tests never build a packet with no body", "anchors": ["libs/egts/egts_pkg.go: Package.Encode, Package.Decode lines 128-131"]}
{"id": "C14", "title": "Record set round trip", "statement": "Encoding a list of well-formed service data records and decoding the bytes into an empty set returns the same records in the same order, each with its record length filled in, for any number of records and any combination of optional OID, EVID and TM fields.", "quantifier": "every list of records (any length) whose encodings fit in 65535 bytes", "why_tests_cant": "unbounded lists and 2^8 flag combinations", "anchors": ["libs/egts/service_data_records.go: ServiceDataSet.Encode, ServiceDataSet.Decode"]}
{"id": "C15", "title": "Subrecord set round trip", "statement": "Encoding a list of well-formed subrecords and decoding the bytes into an empty set returns the same subrecords in the same order, with the same Go type, and with type and length filled in.", "quantifier": "every list of subrecords of the implemented types", "why_tests_cant": "unbounded lists over sixteen types", "anchors": ["libs/egts/record_data.go: RecordDataSet.Encode, RecordDataSet.Decode"]}
{"id": "C16", "title": "Unknown subrecords are skipped", "statement": "A subrecord of an unknown type with a correct length field is skipped without affecting the decoding of the subrecords before and after it.", "quantifier": "every unknown type code, every payload up to 65535 bytes, every surrounding list of subrecords", "why_tests_cant": "unbounded payloads and contexts", "anchors": ["libs/egts/record_data.go: RecordDataSet.Decode default branch"]}
{"id": "C17", "title": "Automatic subrecord typing", "statement": "Encode fills in the type code of a subrecord whose type field is zero according to its Go type, and the code emitted always makes Decode choose the same Go type; an explicit non-zero type code is emitted unchanged.", "quantifier": "every subrecord value of every implemented type", "why_tests_cant": "must hold for each of the sixteen types and every payload", "anchors": ["libs/egts/record_data.go: RecordDataSet.Encode switch, RecordDataSet.Decode switch", "libs/egts/const_types.go"]}
{"id": "C18", "title": "Length() equals the encoded size", "statement": "For every BinaryData implementation, Length() is the number of bytes Encode() returns (0 when Encode fails) whenever that number fits in 16 bits, and is that number modulo 65536 otherwise.", "quantifier": "every value of every BinaryData type", "why_tests_cant": "all values of eighteen types", "anchors": ["libs/egts/binary_data.go: BinaryData", "libs/egts/egts_sr_*.go: Length", "libs/egts/egts_sr_abs_an_sensors_data.go: Length"]}
{"id": "C19", "title": "Emitted length fields are consistent", "statement": "The record length and subrecord length fields emitted by Encode equal the number of bytes of record data and subrecord data that follow.", "quantifier": "every record and subrecord list, including ones obtained by decoding and then editing", "why_tests_cant": "tests only use zero or correct length fields", "anchors": ["libs/egts/service_data_records.go: ServiceDataSet.Encode lines 137-142", "libs/egts/record_data.go: RecordDataSet.Encode lines 141-146"]}
{"id": "C20", "title": "Decode then encode reproduces the bytes", "statement": "If Decode accepts a frame, encoding the decoded Package reproduces the original bytes.", "quantifier": "every accepted frame", "why_tests_cant": "the test checks one frame; most frames behave differently", "anchors": ["libs/egts/egts_pkg_test.go: TestFullCycleCoding", "libs/egts/egts_pkg.go"]}
{"id": "C21", "title": "Truncated data is rejected", "statement": "A decoder given fewer bytes than its fields need returns an error instead of inventing the missing bytes.", "quantifier": "every decoder, every proper prefix of every encoding", "why_tests_cant": "every prefix of every encoding of every type", "anchors": ["libs/egts/egts_sr_*.go: Decode (buf.Read ignores short reads)"]}
{"id": "C22", "title": "Decoding is independent of the receiver's previous contents", "statement": "Decoding into a struct that was used before gives the same result as decoding into a fresh one.", "quantifier": "every decoder, every previous receiver value, every input", "why_tests_cant": "depends on history of the receiver", "anchors": ["libs/egts/egts_sr_*.go: Decode", "libs/egts/service_data_records.go: ServiceDataSet.Decode (append)"]}
{"id": "C23", "title": "PtResponse round trip", "statement": "A PtResponse (response packet id, processing result, optional record set) round-trips through Encode and Decode.", "quantifier": "every packet id, result and record set (absent or with at least one record)", "why_tests_cant": "unbounded record sets", "anchors": ["libs/egts/egts_pt_response.go"]}
{"id": "C24", "title": "EGTS_SR_TERM_IDENTITY round trip", "statement": "Encode followed by Decode into a fresh value returns the same SrTermIdentity whenever its fields are well-formed (one-digit flags, fixed-width IMEI/IMSI/language/network fields, absent fields empty); with malformed flags Encode must report an error.", "quantifier": "every well-formed SrTermIdentity value", "why_tests_cant": "the value space is far too large to enumerate", "anchors": ["libs/egts/egts_sr_term_identity.go: SrTermIdentity.Encode, SrTermIdentity.Decode"]}
{"id": "C25", "title": "EGTS_SR_MODULE_DATA round trip", "statement": "Encode followed by Decode into a fresh value returns the same SrModuleData whenever its fields are well-formed (signed module type, NUL-free strings of any length).", "quantifier": "every well-formed SrModuleData value", "why_tests_cant": "the value space is far too large to enumerate", "anchors": ["libs/egts/egts_sr_module_data.go: SrModuleData.Encode, SrModuleData.Decode"]}
{"id": "C26", "title": "EGTS_SR_AUTH_INFO round trip", "statement": "Encode followed by Decode into a fresh value returns the same SrAuthInfo whenever its fields are well-formed (NUL-free strings of any length, optional server sequence).", "quantifier": "every well-formed SrAuthInfo value", "why_tests_cant": "the value space is far too large to enumerate", "anchors": ["libs/egts/egts_sr_auth_info.go: SrAuthInfo.Encode, SrAuthInfo.Decode"]}
{"id": "C27", "title": "EGTS_SR_DISPATCHER_IDENTITY round trip", "statement": "Encode followed by Decode into a fresh value returns the same SrDispatcherIdentity whenever its fields are well-formed (any description, including the empty one and ones containing NUL).", "quantifier": "every well-formed SrDispatcherIdentity value", "why_tests_cant": "the value space is far too large to enumerate", "anchors": ["libs/egts/egts_sr_dispatcher_identity.go: SrDispatcherIdentity.Encode, SrDispatcherIdentity.Decode"]}
{"id": "C28", "title": "EGTS_SR_RECORD_RESPONSE and EGTS_SR_RESULT_CODE round trip", "statement": "Encode followed by Decode into a fresh value returns the same SrResponse whenever its fields are well-formed (likewise SrResultCode).", "quantifier": "every well-formed SrResponse value", "why_tests_cant": "the value space is far too large to enumerate", "anchors": ["libs/egts/egts_sr_response.go: SrResponse.Encode, SrResponse.Decode"]}
{"id": "C29", "title": "EGTS_SR_POS_DATA (non-coordinate fields) round trip", "statement": "Encode followed by Decode into a fresh value returns the same SrPosData whenever its fields are well-formed (speed, direction, altitude, odometer, flags, inputs, source).", "quantifier": "every well-formed SrPosData value", "why_tests_cant": "the value space is far too large to enumerate", "anchors": ["libs/egts/egts_sr_pos_data.go: SrPosData.Encode, SrPosData.Decode"]}
{"id": "C30", "title": "EGTS_SR_POS_DATA coordinates", "statement": "Decoding a raw 32-bit latitude/longitude gives the float64 nearest-rounded value of raw*90/0xFFFFFFFF (raw*180/0xFFFFFFFF), within [0,90] ([0,180]); encoding a latitude in [0,90] (longitude in [0,180]) and decoding it again cuts off less than one wire unit and adds nothing (but for rounding, at most 1/131072 of a unit); and decode followed by encode reproduces the raw value.", "quantifier": "all 2^32 raw values and all float64 coordinates in range", "why_tests_cant": "2^32 raw values and 2^62 floats, with rounding in every step", "anchors": ["libs/egts/egts_sr_pos_data.go lines 60, 67, 148, 153"]}
{"id": "C31", "title": "EGTS_SR_POS_DATA time", "statement": "Every 32-bit navigation time decodes to exactly that many seconds after 2010-01-01T00:00:00Z and encodes back to the same 32 bits; record times (TM) likewise.", "quantifier": "all 2^32 time values", "why_tests_cant": "2^32 values through float and duration arithmetic with possible overflow", "anchors": ["libs/egts/egts_sr_pos_data.go lines 52, 143", "libs/egts/service_data_records.go lines 93, 171"]}
{"id": "C32", "title": "EGTS_SR_POS_DATA direction and speed", "statement": "The decoded speed is the 14-bit wire speed in whole km/h (tenths dropped), the sign and direction-high bits are the top two bits, and the decoded direction determines the 9-bit wire direction.", "quantifier": "all 2^16 speed words and 2^8 direction bytes", "why_tests_cant": "tests check one word", "anchors": ["libs/egts/egts_sr_pos_data.go lines 83-103, 167-176"]}
{"id": "C33", "title": "EGTS_SR_EXT_POS_DATA round trip", "statement": "Encode followed by Decode into a fresh value returns the same SrExtPosData whenever its fields are well-formed (any combination of the five optional fields).", "quantifier": "every well-formed SrExtPosData value", "why_tests_cant": "the value space is far too large to enumerate", "anchors": ["libs/egts/egts_sr_ext_pos_data.go: SrExtPosData.Encode, SrExtPosData.Decode"]}
{"id": "C34", "title": "EGTS_SR_AD_SENSORS_DATA round trip", "statement": "Encode followed by Decode into a fresh value returns the same SrAdSensorsData whenever its fields are well-formed (any combination of eight digital octets and eight analog sensors).", "quantifier": "every well-formed SrAdSensorsData value", "why_tests_cant": "the value space is far too large to enumerate", "anchors": ["libs/egts/egts_sr_ad_sensors_data.go: SrAdSensorsData.Encode, SrAdSensorsData.Decode"]}
{"id": "C35", "title": "EGTS_SR_COUNTERS_DATA round trip", "statement": "Encode followed by Decode into a fresh value returns the same SrCountersData whenever its fields are well-formed (any combination of eight counters below 2^24).", "quantifier": "every well-formed SrCountersData value", "why_tests_cant": "the value space is far too large to enumerate", "anchors": ["libs/egts/egts_sr_counters_data.go: SrCountersData.Encode, SrCountersData.Decode"]}
{"id": "C36", "title": "EGTS_SR_STATE_DATA round trip", "statement": "Encode followed by Decode into a fresh value returns the same SrStateData whenever its fields are well-formed.", "quantifier": "every well-formed SrStateData value", "why_tests_cant": "the value space is far too large to enumerate", "anchors": ["libs/egts/egts_sr_state_data.go: SrStateData.Encode, SrStateData.Decode"]}
{"id": "C37", "title": "EGTS_SR_LIQUID_LEVEL_SENSOR round trip", "statement": "Encode followed by Decode into a fresh value returns the same SrLiquidLevelSensor whenever its fields are well-formed (sensor number 0..7; larger numbers must be refused).", "quantifier": "every well-formed SrLiquidLevelSensor value", "why_tests_cant": "the value space is far too large to enumerate", "anchors": ["libs/egts/egts_sr_liquid_level_sensor.go: SrLiquidLevelSensor.Encode, SrLiquidLevelSensor.Decode"]}
{"id": "C38", "title": "EGTS_SR_ABS_CNTR_DATA and EGTS_SR_ABS_AN_SENS_DATA round trip", "statement": "Encode followed by Decode into a fresh value returns the same SrAbsCntrData whenever its fields are well-formed (24-bit values; likewise SrAbsAnSensData).", "quantifier": "every well-formed SrAbsCntrData value", "why_tests_cant": "the value space is far too large to enumerate", "anchors": ["libs/egts/egts_sr_abs_cntr_data.go: SrAbsCntrData.Encode, SrAbsCntrData.Decode"]}
{"id": "C39", "title": "Malformed flag strings are refused", "statement": "Every Encode that builds a flag byte from flag strings returns an error, and emits nothing, when the concatenation is not a binary number below 256.", "quantifier": "every assignment of strings to flag fields", "why_tests_cant": "arbitrary strings", "anchors": ["libs/egts/egts_pkg.go line 195", "libs/egts/service_data_records.go line 151", "libs/egts/egts_sr_*.go: strconv.ParseUint"]}
{"id": "C40", "title": "Stream framing", "statement": "If a client sends any sequence of frames produced by Encode, the receiver cuts the byte stream exactly at the frame boundaries and handles exactly those frames in order.", "quantifier": "every finite sequence of encoded frames of up to 65535 body bytes, including lengths where the 16-bit length arithmetic wraps", "why_tests_cant": "unbounded sequences and 16-bit wrap-around", "anchors": ["cli/receiver/server/server.go lines 80-108"]}
{"id": "C41", "title": "Segmentation independence", "statement": "What the receiver saves and answers depends only on the bytes of the stream, not on how TCP splits them into reads.", "quantifier": "every byte stream and every way of cutting it into chunks", "why_tests_cant": "schedules of the network are unbounded", "anchors": ["cli/receiver/server/server.go: io.ReadFull"]}
{"id": "C42", "title": "Every accepted data packet is acknowledged", "statement": "For every APPDATA packet that decodes and contains no record-confirmation subrecord, the receiver writes exactly one EGTS_PT_RESPONSE that the library itself decodes to: the packet's identifier, result 0, and one confirmation per record, in order, carrying that record's number and status 0; the answer's packet identifier is the request's plus one modulo 65536.", "quantifier": "every accepted packet with any number of records", "why_tests_cant": "unbounded packets; the test checks one", "anchors": ["cli/receiver/server/server.go: handleConn", "cli/receiver/server/server.go: createPtResponse"]}
{"id": "C43", "title": "A packet that fails to decode is answered with its code and saves nothing", "statement": "When Decode fails (without panicking), exactly one EGTS_PT_RESPONSE is written carrying the decoded packet identifier and the failure code, nothing is saved, and the connection goes on with the next frame.", "quantifier": "every frame and every position in a stream", "why_tests_cant": "every malformed input", "anchors": ["cli/receiver/server/server.go lines 121-133"]}
{"id": "C44", "title": "Every position record is saved exactly once, in order", "statement": "For every accepted APPDATA packet, Save is called exactly once for each record that contains an EGTS_SR_POS_DATA subrecord, in record order, and never for other records.", "quantifier": "every accepted packet and every stream of packets", "why_tests_cant": "README promises it for all packets", "anchors": ["cli/receiver/server/server.go: handleConn", "README.md lines 14-15"]}
{"id": "C45", "title": "Saved records carry the packet's data", "statement": "The saved record has the time, coordinates, speed and course of the last position subrecord of the record, the satellite and precision data of the last extended position subrecord, and all analog and liquid sensors in order.", "quantifier": "every record with any list of subrecords", "why_tests_cant": "unbounded subrecord lists", "anchors": ["cli/receiver/server/server.go lines 163-269", "cli/receiver/storage/packet.go"]}
{"id": "C46", "title": "Client identity", "statement": "A saved record's client is the record's own object id if present, overridden by a terminal identity in the same record, and otherwise the most recent identity seen earlier on the same connection (0 if none); it never depends on other connections.", "quantifier": "every history of packets on a connection", "why_tests_cant": "depends on unbounded history", "anchors": ["cli/receiver/server/server.go lines 62, 158-169, 271"]}
{"id": "C47", "title": "Save before acknowledge", "statement": "At every point of the execution, if the answer confirming a packet has been written then Save has already returned for every position record of that packet (crash between the two can duplicate but not lose an acknowledged record).", "quantifier": "every prefix (crash point) of every execution", "why_tests_cant": "all crash points", "anchors": ["cli/receiver/server/server.go lines 271-284"]}
{"id": "C48", "title": "An acknowledged record is stored", "statement": "If the receiver confirms a record with status 0, every configured storage accepted it.", "quantifier": "every outcome of every storage", "why_tests_cant": "failure patterns of the storages are arbitrary", "anchors": ["cli/receiver/server/server.go lines 272-276", "cli/receiver/storage/store.go: Repository.Save"]}
{"id": "C49", "title": "Storage fan-out", "statement": "Repository.Save calls the configured storages in order, each at most once, until one fails; it returns success exactly when all succeeded, in which case every storage got the record.", "quantifier": "every list of storages and every failure pattern", "why_tests_cant": "arbitrary numbers of storages and failures", "anchors": ["cli/receiver/storage/store.go: Repository.Save, AddStore"]}
{"id": "C50", "title": "Storage loading", "statement": "LoadStorages succeeds exactly when the configuration is non-empty, names only supported storages, and all of them initialise; then exactly the configured storages are installed; on failure the start-up code adds the log storage, so the receiver always has at least one storage.", "quantifier": "every configuration and every map iteration order", "why_tests_cant": "Go's map iteration order is random", "anchors": ["cli/receiver/storage/store.go: LoadStorages", "cli/receiver/main.go"]}
{"id": "C51", "title": "Authentication answer", "statement": "If an accepted packet contains a terminal identity or an authentication info subrecord, the acknowledgement is followed by exactly one EGTS_SR_RESULT_CODE packet with result 0; otherwise no second packet is sent.", "quantifier": "every accepted packet", "why_tests_cant": "all subrecord combinations", "anchors": ["cli/receiver/server/server.go lines 165-178, 288-291, createSrResultCode"]}
{"id": "C52", "title": "The receiver's packets are decodable", "statement": "Every packet the receiver writes is accepted by the library's own Decode.", "quantifier": "every written packet of every execution", "why_tests_cant": "all executions", "anchors": ["cli/receiver/server/server.go: createPtResponse, createSrResultCode"]}
{"id": "C53", "title": "Response packets are not answered", "statement": "An EGTS_PT_RESPONSE from the peer causes no write and no save (so two receivers never ping-pong).", "quantifier": "every accepted response packet", "why_tests_cant": "all response packets", "anchors": ["cli/receiver/server/server.go lines 292-294"]}
{"id": "C54", "title": "Non-EGTS traffic is dropped", "statement": "If the first byte of a frame is not 1 the connection is closed with no write and no save for that frame.", "quantifier": "every stream", "why_tests_cant": "all streams", "anchors": ["cli/receiver/server/server.go lines 88-92"]}
{"id": "C55", "title": "No remote crash", "statement": "No byte stream sent by a client makes the receiver process panic.", "quantifier": "every byte stream", "why_tests_cant": "one of 2^88 eleven-byte inputs is enough", "anchors": ["cli/receiver/server/server.go: handleConn", "libs/egts/egts_pkg.go line 124"]}
{"id": "C56", "title": "Connection isolation", "statement": "With any number of concurrent connections and any scheduling, the records saved and the answers written on behalf of one connection are exactly those of running that connection alone (as long as nothing panics).", "quantifier": "every number of connections, every stream per connection, every interleaving", "why_tests_cant": "all interleavings", "anchors": ["cli/receiver/server/server.go: Run, handleConn"]}
{"id": "C57", "title": "Idle connections are closed", "statement": "A connection on which nothing is received for longer than the configured time-to-live is closed.", "quantifier": "every schedule of timer ticks and data arrivals", "why_tests_cant": "time-outs and schedules", "anchors": ["cli/receiver/server/server.go lines 78-112", "README.md conn_ttl"]}
{"id": "C58", "title": "Stop ends Run", "statement": "After Stop the accept loop ends.", "quantifier": "every sequence of accept results after the listener was closed", "why_tests_cant": "unbounded executions", "anchors": ["cli/receiver/server/server.go: Run, Stop"]}
{"id": "C59", "title": "Packet number reassembly", "statement": "When a record carries counters 110 (three low bytes) and 111 (high byte) the saved packet id is the 32-bit number they form; with only 110 it is that value; with neither it is the packet identifier.", "quantifier": "every pair of counter values and every order of subrecords", "why_tests_cant": "2^32 values", "anchors": ["cli/receiver/server/server.go lines 232-252"]}
{"id": "C60", "title": "Liquid level units", "statement": "A liquid sensor reading in units 00/01 is saved in value_mm, in units 10 it is saved in value_l as ten times the raw value without overflow, and the other field is 0.", "quantifier": "every sensor reading", "why_tests_cant": "2^32 values", "anchors": ["cli/receiver/server/server.go lines 253-267"]}
{"id": "C61", "title": "Saved coordinates include the hemisphere", "statement": "Records of positions that differ only in the hemisphere flags are distinguishable after saving.", "quantifier": "every position", "why_tests_cant": "all positions", "anchors": ["cli/receiver/server/server.go lines 186-191", "libs/egts/egts_sr_pos_data.go: LAHS, LOHS"]}
{"id": "C62", "title": "Packet generator and receiver interoperate", "statement": "For every packet id 1..65535, object id, liquid level and coordinates, the packet built by packet-gen is accepted by the receiver, which saves one record with that object id, and the answer satisfies all of packet-gen's acknowledgement checks.", "quantifier": "all command line values in range", "why_tests_cant": "2^16 * 2^32 * 2^32 * floats", "anchors": ["cli/packet-gen/main.go", "cli/receiver/server/server.go"]}
{"id": "C63", "title": "Settings accessors", "statement": "The connection TTL is the configured number of seconds, the listen address is host:port, and the log level follows the configured name with INFO as default.", "quantifier": "every settings value", "why_tests_cant": "arbitrary strings and integers with overflow", "anchors": ["cli/receiver/config/config.go"]}
{"id": "C64", "title": "EGTS+ record round trip", "statement": "Every StorageRecord with its required fields set and representable field values is encoded to a protobuf text that Decode reads back as the same record, and the bytes are the proto2 wire format of the declared message: ascending field numbers, the declared wire types, unknown fields at the end.", "quantifier": "every representable record with any repeated fields and nested messages", "why_tests_cant": "repeated and nested fields, all integer values", "anchors": ["libs/egts/egts_sr_egtsplus_data.go", "libs/egts/store_record.pb.go"]}
{"id": "C65", "title": "Received EGTS+ records can be sent on without loss", "statement": "Whatever EGTS+ payload Decode accepts, including fields this version does not know, re-encoding the decoded record gives a payload that decodes to the same record, and the subrecord travels through a record set unchanged.", "quantifier": "every byte string", "why_tests_cant": "all payloads, all unknown fields", "anchors": ["libs/egts/egts_sr_egtsplus_data.go"]}
{"id": "C66", "title": "EGTS+ required fields", "statement": "Encode fails exactly when a required field of the record or of a message in it is missing, and Decode never returns a record with a required field missing.", "quantifier": "every record and every byte string", "why_tests_cant": "every combination of missing fields", "anchors": ["libs/egts/egts_sr_egtsplus_data.go"]}
{"id": "C67", "title": "The stored form of a record is JSON", "statement": "ToBytes returns a JSON object (RFC 8259) with exactly the 15 documented members in order and the values of the record, and fails exactly when a coordinate is NaN or infinite; a record produced by the receiver never fails.", "quantifier": "every record; every byte stream received", "why_tests_cant": "every number and string, unbounded sensor lists", "anchors": ["cli/receiver/storage/packet.go"]}
{"id": "C68", "title": "The stored form loses nothing", "statement": "Every reader that takes the stored text as JSON gets the values of the record, and different records have different texts.", "quantifier": "every pair of records", "why_tests_cant": "all pairs of records", "anchors": ["cli/receiver/storage/packet.go"]}
{"id": "C69", "title": "Saved values are in range", "statement": "Whatever bytes are received, every record handed to the storages has finite coordinates with latitude 0..90 and longitude 0..180, a speed of at most 1638, a course of at most 255, a time from 2010-01-01 on, and sensor values within their wire ranges.", "quantifier": "every byte stream, every segmentation", "why_tests_cant": "all byte streams", "anchors": ["cli/receiver/server/server.go: handleConn", "libs/egts/egts_sr_pos_data.go"]}
{"id": "C70", "title": "The packet generator reports success exactly for a positive acknowledgement", "statement": "Of the well-formed answers that arrive in one piece and in time, packet-gen reports success exactly for those that confirm the packet it sent with result 0 and every record with status 0, and names the reason otherwise. Whatever bytes arrive, success is reported only for a response packet with correct checksums, the number of the packet sent, result 0 and no other record status.", "quantifier": "every command line, every answer", "why_tests_cant": "all answers, including arbitrary bytes", "anchors": ["cli/packet-gen/main.go"]}
{"id": "C71", "title": "The packet generator sends the time asked for", "statement": "The navigation time on the packet sent is the -time argument.", "quantifier": "every command line", "why_tests_cant": "all times", "anchors": ["cli/packet-gen/main.go"]}
{"id": "C72", "title": "The exit status of the packet generator tells success", "statement": "The exit status is 0 when the packet was confirmed and non-zero otherwise.", "quantifier": "every run", "why_tests_cant": "all runs", "anchors": ["cli/packet-gen/main.go"]}
{"id": "C73", "title": "The packet generator waits as long as asked", "statement": "An answer that is there before the timeout is looked at, and later ones are not; without -timeout the timeout is 5 seconds, as documented.", "quantifier": "every timeout and every delay", "why_tests_cant": "all delays", "anchors": ["cli/packet-gen/main.go"]}
{"id": "C74", "title": "The packet generator sends one packet with the arguments, or nothing", "statement": "One packet is sent, to the server given, exactly when the identifiers and the time are given and valid and the network works; it carries the packet and object identifiers, the coordinates and the liquid level given. An identifier that does not fit in its field is refused.", "quantifier": "every command line", "why_tests_cant": "all command lines", "anchors": ["cli/packet-gen/main.go"]}
{"id": "C75", "title": "The packet generator accepts an answer in pieces", "statement": "The verdict on an answer does not depend on how the network splits it.", "quantifier": "every answer and every split", "why_tests_cant": "all splits", "anchors": ["cli/packet-gen/main.go"]}
{"id": "C76", "title": "No answer makes the packet generator panic", "statement": "The packet generator ends with a message whatever the server answers.", "quantifier": "every answer", "why_tests_cant": "all answers", "anchors": ["cli/packet-gen/main.go"]}
{"id": "C77", "title": "A Save is one request to the place configured", "statement": "Save of every connector makes exactly one request to its storage, with the JSON text of the record, to the table, topic, exchange or queue in the settings, and succeeds exactly when that request does; a record without a JSON form makes Save fail without a request.", "quantifier": "every connector, settings, record and outcome of the library", "why_tests_cant": "all connectors times all outcomes", "anchors": ["cli/receiver/storage/store", "cli/receiver/storage/packet.go"]}
{"id": "C78", "title": "No record gets into the text of an SQL statement", "statement": "The SQL statement a connector executes depends on the settings alone; the record is only passed as a parameter.", "quantifier": "every settings and every record", "why_tests_cant": "all records", "anchors": ["cli/receiver/storage/store/mysql/connector.go", "cli/receiver/storage/store/postgresql/connector.go"]}
{"id": "C79", "title": "The Redis data base number defaults to 0", "statement": "Without a db setting the Redis connector uses data base 0.", "quantifier": "every settings", "why_tests_cant": "all settings", "anchors": ["cli/receiver/storage/store/redis/connector.go"]}
{"id": "C80", "title": "Init refuses unusable settings before contacting anything", "statement": "Init fails without using the network when the settings are nil, lack a documented setting or have a number that is none, and otherwise succeeds exactly when the library calls do.", "quantifier": "every connector, settings and outcome of the library", "why_tests_cant": "all settings and outcomes", "anchors": ["cli/receiver/storage/store"]}
{"id": "C81", "title": "Connection strings say what the settings say", "statement": "The connection string made from the settings, read by the rules of its format (libpq keyword/value strings, AMQP URIs), gives back exactly the settings.", "quantifier": "every settings", "why_tests_cant": "all settings, including special characters", "anchors": ["cli/receiver/storage/store/postgresql/connector.go", "cli/receiver/storage/store/rabbitmq/connector.go"]}
{"id": "C82", "title": "Every record received reaches every storage", "statement": "A receiver started with a configuration has a connector for each entry, and every record with a position in the byte stream is sent, as JSON, to each of the storages, in the order received.", "quantifier": "every configuration, byte stream, segmentation and outcome of the libraries", "why_tests_cant": "unbounded streams, all failures", "anchors": ["cli/receiver/main.go", "cli/receiver/storage/store.go", "cli/receiver/server/server.go", "cli/receiver/storage/store"]}
{"id": "C83", "title": "Without a storage the records are printed", "statement": "If no storage could be set up, every record is printed as JSON.", "quantifier": "every record and every log level", "why_tests_cant": "all records and levels", "anchors": ["cli/receiver/storage/default.go", "cli/receiver/main.go"]}
{"id": "C84", "title": "The numbers of the Tarantool settings are used", "statement": "Timeout, reconnection interval and number of reconnections are those of the settings.", "quantifier": "every settings", "why_tests_cant": "all integers", "anchors": ["cli/receiver/storage/store/tarantool_queue/connector.go"]}
{"id": "C85", "title": "The settings file sets what it is documented to set", "statement": "Time-to-live, listen address and log level are those under the documented keys of the settings file.", "quantifier": "every settings file", "why_tests_cant": "all files", "anchors": ["cli/receiver/config/config.go", "configs/receiver.yaml"]}
{"id": "C86", "title": "Which byte strings a subrecord decoder accepts, and as what", "statement": "A subrecord decoder accepts a byte string with a value exactly when the string starts with the fields of the value in the documented order, where only the last field reached may be cut short (its missing bytes are zero, or those left in the shared read buffer).", "quantifier": "every byte string, every value, every prior contents of the receiver, for each subrecord type", "why_tests_cant": "all byte strings, both directions of an equivalence", "anchors": ["libs/egts/egts_sr_abs_an_sensors_data.go", "libs/egts/egts_sr_abs_cntr_data.go", "libs/egts/egts_sr_ad_sensors_data.go", "libs/egts/egts_sr_auth_info.go", "libs/egts/egts_sr_counters_data.go", "libs/egts/egts_sr_dispatcher_identity.go", "libs/egts/egts_sr_egtsplus_data.go", "libs/egts/egts_sr_ext_pos_data.go", "libs/egts/egts_sr_liquid_level_sensor.go", "libs/egts/egts_sr_module_data.go", "libs/egts/egts_sr_pos_data.go", "libs/egts/egts_sr_response.go", "libs/egts/egts_sr_result_code.go", "libs/egts/egts_sr_state_data.go", "libs/egts/egts_sr_term_identity.go"]}
{"id": "C87", "title": "Which byte strings are record sets, and which records they hold", "statement": "Decoding a record set, a subrecord set or a response body succeeds with a value exactly when the bytes are read as that value by the layout: records with their header, subrecords by type and length, unknown types skipped, lengths that exceed what is left filled up with zeros or cut.", "quantifier": "every byte string and every list of records, nested to any depth", "why_tests_cant": "all byte strings, both directions of an equivalence", "anchors": ["libs/egts/service_data_records.go", "libs/egts/record_data.go", "libs/egts/egts_pt_response.go"]}
{"id": "C88", "title": "Which frames a packet decoder accepts, and as what", "statement": "Package.Decode returns success with a packet exactly when the checks of the frame hold and every field of the packet is the one the layout gives.", "quantifier": "every byte string, capacity behind it, key, prior contents of the packet, and every packet", "why_tests_cant": "all byte strings, both directions of an equivalence", "anchors": ["libs/egts/egts_pkg.go"]}
{"id": "C89", "title": "Package.ToBytes writes a packet as JSON", "statement": "ToBytes returns an error exactly when some time in the packet is outside the years 0 to 9999 or some float is not a number; otherwise the text is JSON, and whoever reads it finds every field of the packet, its records and subrecords under its name: numbers, texts, RFC 3339 times, base64 bytes, absent parts null or left out.", "quantifier": "every packet within the types of its fields, any number of records and subrecords of any type, any EGTS+ message", "why_tests_cant": "unbounded nesting, all values of all fields, every way a text may be read", "anchors": ["libs/egts/egts_pkg.go:275-278", "libs/egts/egts_sr_egtsplus_data.go"]}
{"id": "C90", "title": "A received packet can be written as JSON", "statement": "Every packet that Decode returns without an error has a JSON text.", "quantifier": "every byte string that is accepted, any capacity behind it, any key", "why_tests_cant": "all accepted byte strings; it fails only for special bit patterns", "anchors": ["libs/egts/egts_pkg.go", "libs/egts/egts_sr_egtsplus_data.go"]}
{"id": "C91", "title": "The JSON of a packet tells it from every other packet", "statement": "Packets with the same JSON text are equal.", "quantifier": "every pair of packets, and every pair of accepted byte strings", "why_tests_cant": "all pairs of packets", "anchors": ["libs/egts/egts_pkg.go:275-278", "libs/egts/egts_sr_egtsplus_data.go"]}
{"id": "C92", "title": "Floats in JSON texts are exact and as short as possible", "statement": "The text of a finite float in JSON output is read back as the same float and as no other, no decimal with fewer digits is read as that float, and it has an exponent exactly when the float is not 0 and below 1e-6 or at least 1e21 in magnitude.", "quantifier": "every finite float64 and float32", "why_tests_cant": "2^64 bit patterns; shortest means compared with all shorter decimals", "anchors": ["cli/receiver/storage/packet.go", "libs/egts/egts_pkg.go:275-278"]}
{"id": "C93", "title": "Which values a subrecord encoder accepts, and what it writes", "statement": "Encode of a subrecord value writes exactly the bytes that the layout of its type gives for it, filling in nothing and refusing exactly the values whose flag strings together are not a binary number below 256 (EGTS_SR_TERM_IDENTITY refuses nothing and writes 255 or 0 for such flags; EGTS+ data follows its codec). It never panics.", "quantifier": "every value of every subrecord type, well-formed or not", "why_tests_cant": "arbitrary flag strings, numbers, times and floats", "anchors": ["libs/egts/egts_sr_pos_data.go:133-206", "libs/egts/egts_sr_term_identity.go:118-179", "libs/egts/egts_sr_ad_sensors_data.go:207-360"]}
{"id": "C94", "title": "What the record encoders do with any record", "statement": "Encoding subrecords, records or a response gives the bytes of each in order with empty type and length fields filled in; the first that cannot be written decides the outcome: a panic for a subrecord with a type and without data, an error otherwise.", "quantifier": "every list of records with every list of subrecords", "why_tests_cant": "lists of any length with any contents", "anchors": ["libs/egts/record_data.go:96-158", "libs/egts/service_data_records.go:123-191", "libs/egts/egts_pt_response.go:45-70"]}
{"id": "C95", "title": "What Package.Encode does with any packet", "statement": "The result of Encode and the packet afterwards are determined as follows: malformed flags give an error and leave the packet alone; otherwise an empty header length is filled in, a body that cannot be encoded or encrypted decides the result, and else the frame is written and its body length stored, the body being left out if its length is a multiple of 65536. Nothing but the two lengths changes.", "quantifier": "every packet, every key", "why_tests_cant": "all packets, bodies of any length", "anchors": ["libs/egts/egts_pkg.go:170-273"]}
{"id": "C96", "title": "A time between two seconds is sent as the earlier second", "statement": "The time of a position and the time of a record are written as the whole seconds since 2010-01-01T00:00:00Z that have passed, so the same instant is the same second in both.", "quantifier": "every instant from 2010 to 2146, in nanoseconds", "why_tests_cant": "4*10^18 instants; the float64 rounding in Duration.Seconds shows only near the end of a second", "anchors": ["libs/egts/egts_sr_pos_data.go:142-145", "libs/egts/service_data_records.go:169-173"]}
{"id": "C97", "title": "The sample sender sends the packets of its file", "statement": "tools/send_egts.py sends the packets written in its file, one per line in hexadecimal, in order, each followed by one receive, and then closes the connection; a line that is not hexadecimal ends it with an error after the packets before it.", "quantifier": "every text, with any of the three kinds of line ends, with or without one after the last line", "why_tests_cant": "all files; the only file in the repository ends with a newline", "anchors": ["tools/send_egts.py:22-32"]}
{"id": "C98", "title": "Everything the sample sender sends arrives", "statement": "Connected to the receiver, the sample sender gets to the end of its file, and the receiver then has saved and answered what it saves and answers for these packets; the bytes received are those written, in order.", "quantifier": "every file, every schedule of the two programs and of the network, every way of cutting the answers into pieces", "why_tests_cant": "all schedules; a sender that waits for ever is not told from a slow one", "anchors": ["tools/send_egts.py:22-32", "cli/receiver/server/server.go:53-297"]}
{"id": "C99", "title": "Decoding depends on the bytes of the packet only", "statement": "The result of Package.Decode is decided by the bytes of the packet: neither the memory behind the slice nor bytes after the end of the packet make a difference.", "quantifier": "every byte string, every continuation, every memory content, every key", "why_tests_cant": "the memory behind a slice cannot be enumerated, and tests allocate slices without any", "anchors": ["libs/egts/egts_pkg.go:47-168"]}
{"id": "C100", "title": "Damage to the body and its checksum together is detected", "statement": "Take any accepted frame. Changing the body and the checksum after it in any way confined to 16 consecutive bits, or flipping any odd number of their bits, or flipping two of their bits fewer than 32759 positions apart, makes Decode return an error; it never returns success.", "quantifier": "every accepted frame, every error pattern of the kinds named", "why_tests_cant": "the error patterns that hit both the body and its checksum are exponentially many and depend on the frame", "anchors": ["libs/egts/egts_pkg.go:134-165", "libs/egts/crc.go:20-35"]}
{"id": "C101", "title": "Up to three wrong bits anywhere in a frame are detected", "statement": "Flipping one, two or three bits anywhere in an accepted frame with a body of at most 4092 bytes makes Decode return an error; it never returns success.", "quantifier": "every accepted frame, every choice of up to three bits", "why_tests_cant": "a frame of 4 KB has more than 5*10^12 ways to have three wrong bits", "anchors": ["libs/egts/egts_pkg.go:47-168", "libs/egts/crc.go:3-35"]}
{"id": "C102", "title": "The answers, byte for byte", "statement": "For every frame the bytes written are fixed by the frame: a refused packet is answered by one 16-byte response with the result code; a data packet without record confirmations by one response whose body has the packet number, result 0 and one record (number 1, the service of the last record received) with one six-byte confirmation, status 0, per record received, in order; if there is a terminal identity or authorization data a 24-byte packet with result code 0 follows; a response packet, or a data packet with a record confirmation, is not answered. All answers have number PID+1 modulo 65536, header length 11 and correct checksums. On a connection the bytes written are these answers in the order of the frames.", "quantifier": "every byte stream, every segmentation, every run", "why_tests_cant": "the answer depends on all records, numbers and services of a packet of up to 64 KB", "anchors": ["cli/receiver/server/server.go:97-297", "cli/receiver/server/server.go:307-396"]}
{"id": "C103", "title": "What the receiver writes and saves is bounded by what it receives", "statement": "On every connection the number of bytes written is at most 53/21 times the number of bytes received, and at most one record is saved per 21 bytes received; both bounds are reached.", "quantifier": "every byte stream, every segmentation, every run, including damaged and hostile streams", "why_tests_cant": "an amplification bound is about the worst of all streams; tests only show that some streams do not exceed it", "anchors": ["cli/receiver/server/server.go:53-297", "libs/egts/service_data_records.go:38-120", "libs/egts/record_data.go:22-93"]}
{"id": "C104", "title": "Command lines set what they say", "statement": "The packet generator and the receiver run with the last value the command line gives to each documented option (-name value, -name=value, one or two dashes, up to the first argument that is no option), integers being those of Go source in the range of int64. Help ends the program with status 0, anything else that is not such a command line with status 2, and nothing is sent then. Status 0 means that help was asked for. A packet that is sent carries the identifiers of the command line. The receiver reads the settings file named last, and ends with status 1 if there is none.", "quantifier": "every command line", "why_tests_cant": "all sequences of arguments; no test of the repository runs the programs", "anchors": ["cli/packet-gen/main.go:44-84", "cli/receiver/main.go:11-18"]}
{"id": "C105", "title": "Numbers on the command line are decimal", "statement": "An integer on the command line stands for the number it says in decimal.", "quantifier": "every decimal integer in the range of int64, with and without leading zeros", "why_tests_cant": "all numbers", "anchors": ["cli/packet-gen/main.go:55-61"]}
{"id": "C106", "title": "From the command line to the storage", "statement": "A command line of the packet generator that gives a packet number and an object number that fit and a time, in a network that works, leads to one packet; the receiver saves one record for it with the object, the packet number and the liquid level of the command line and with the coordinates cut off by less than a unit of resolution, and writes one answer; if that answer is back in time the generator reports success.", "quantifier": "every command line, every segmentation of the packet, every network", "why_tests_cant": "two programs and all command lines at once; no test of the repository runs them together", "anchors": ["cli/packet-gen/main.go:44-183", "cli/receiver/server/server.go:56-263"]}
{"id": "C107", "title": "Receivers do not answer each other for ever", "statement": "A receiver that reads the answers of another one saves nothing, does not crash, reads to the end, and answers only the acceptances of logins, each with one complaint; one that reads these complaints does nothing. If nobody logged in the first one's answers are not answered at all.", "quantifier": "every byte stream sent to the first receiver, every segmentation", "why_tests_cant": "all streams; three receivers in a row", "anchors": ["cli/receiver/server/server.go:56-263", "libs/egts/egts_pkg.go:47-168"]}
{"id": "C108", "title": "A packet that comes again is confirmed again but not saved again", "statement": "When the same packet comes a second time on a connection, because its confirmation was late or lost, it gets the same confirmation as before, and its records are not saved a second time.", "quantifier": "every data packet, whatever comes between the two copies", "why_tests_cant": "all packets and all traffic between the copies", "anchors": ["cli/receiver/server/server.go:117-262"]}
{"id": "C109", "title": "Getters of EGTS+ messages", "statement": "Every message of the EGTS+ schema has one getter for each documented field, named after it, and no other; it returns the value of that field, and the zero of its type, or nothing for byte strings, repeated fields and messages, if the field is not set or the message is nil.", "quantifier": "all 19 message types, all their fields, all messages", "why_tests_cant": "over a hundred generated methods, none of which is called by a test", "anchors": ["libs/egts/egts_sr_egtsplus_data.go:266-1352", "docs/egts_sr_egtsplus_data.proto"]}
{"id": "C110", "title": "Names of the reasons for an EGTS+ record", "statement": "String of a reason is the documented name of its number, or the number in decimal if it has none, so that different reasons print differently; UnmarshalJSON takes exactly the JSON strings that are documented names, giving their number, and the JSON integers that fit into 32 bits and null, giving the number and 0; in all other cases it returns an error and leaves the reason as it was, except that an empty slice panics.", "quantifier": "every reason, every JSON text", "why_tests_cant": "all numbers and texts; no test covers these methods", "anchors": ["libs/egts/egts_sr_egtsplus_data.go:92-190", "docs/egts_sr_egtsplus_data.proto"]}
{"id": "C111", "title": "The header fields after Decode, whatever it returns", "statement": "When Package.Decode on an empty Package returns, successfully or with an error, the header fields of the Package are those of the content, bytes that the content does not have counting as zero.", "quantifier": "every byte string, key and memory behind the slice", "why_tests_cant": "all byte strings and places where they can end; the tests look at the fields of successful decodes only", "anchors": ["libs/egts/egts_pkg.go:47-167"]}
{"id": "C112", "title": "The embedded schema is the documented one", "statement": "The compressed file descriptor that Descriptor and EnumDescriptor return unpacks to the descriptor of docs/egts_sr_egtsplus_data.proto, with every name, number, label, type and reason; the index that goes with it points to the message of the same name as the Go type, and each Go type is registered under the name of that message.", "quantifier": "every message, field and enum value of the schema, every byte of the descriptor", "why_tests_cant": "no test of the repository looks at the descriptor; a byte changed in it is noticed only by programs that use reflection", "anchors": ["libs/egts/egts_sr_egtsplus_data.go:191", "libs/egts/egts_sr_egtsplus_data.go:264", "libs/egts/egts_sr_egtsplus_data.go:1354-1520", "docs/egts_sr_egtsplus_data.proto"]}
{"id": "C113", "title": "Reset empties a message", "statement": "After Reset an EGTS+ message has no value in any field and no unknown bytes, and each of its getters returns the default of its field.", "quantifier": "every message type of the schema, every message before, every getter", "why_tests_cant": "all contents a message can have before; no test calls Reset", "anchors": ["libs/egts/egts_sr_egtsplus_data.go:261", "libs/egts/egts_sr_egtsplus_data.go:432", "libs/egts/egts_sr_egtsplus_data.go:1314"]}
