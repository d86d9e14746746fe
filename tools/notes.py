NOTES={
'C24':'Round trip and wire layout for every well-formed value. Malformed flags are not refused by Encode (refuted).',
'C25':'Round trip and wire layout for every well-formed value.',
'C26':'Round trip and wire layout for every well-formed value.',
'C27':'Round trip and wire layout for every well-formed value.',
'C28':'Round trip and wire layout for every well-formed value of both types.',
'C29':'Exact description of what every well-formed value travels as; the round trip fails exactly for directions with the ninth bit set and bit 7 clear (refuted for 300 degrees).',
'C30':'Decoded value, range, strict monotonicity and encode-decode error proved for all values; decode-encode is off by at most one unit downwards, and is not the identity (refuted at raw 186415).',
'C31':'Exact for all 2^32 values, navigation time and record time.',
'C32':'Speed, sign and direction-high bits for all words; the direction does not determine the wire direction (refuted: 300 and 428 decode alike).',
'C33':'Round trip and wire layout for every well-formed value.',
'C34':'Encode writes the analog flags in reverse order: the round trip holds exactly for palindromic analog flag sets; Decode follows the standard layout for every value.',
'C35':'Counter 2 is decoded into counter 1: exact result proved for every value; round trip holds when counter 2 is absent.',
'C36':'Round trip and wire layout for every well-formed value.',
'C37':'Round trip for sensor numbers 0..7; larger numbers are accepted and corrupt the flags (refuted).',
'C38':'Round trip and wire layout for every well-formed value of both types.',

'C09':'Packets, record sets and subrecord sets. Recursive equations without fuel; termination for every input with depth at most one more than the number of nonzero bytes.',
'C14':'Every list of records with well-formed headers whose subrecord lists round-trip, any length.',
'C15':'Every list of subrecords of the implemented types whose own codec round-trips; analog sensors with asymmetric flags do not survive (refuted).',
'C16':'Arbitrary subrecords before, arbitrary bytes after, every unknown type and payload.',
'C17':'All types but module data and dispatcher identity, for which the automatic type is missing (refuted).',
'C18':'All subrecord types, record sets, subrecord sets and responses; the packet has no Length.',
'C19':'Holds when length fields are 0 or correct; stale length fields of decoded and edited values are emitted unchanged (refuted).',
'C23':'Every id, result and optional record set that round-trips.',
'C39':'All encoders, packets included, but terminal identity, which ignores the error (refuted).',

'C01':'Every well-formed packet whose header and body together stay below 65536 bytes, with any bytes following the frame; longer bodies (65525..65535 bytes) are encoded but make Decode panic (refuted, and proved for all of them).',
'C02':'Every well-formed packet, encrypted or not, with any body below 65536 bytes.',
'C03':'Every key whose decryption inverts its encryption; header and ciphertext together below 65536 bytes.',
'C04':'Every packet and every input; the body left behind by Decode is the old one or an empty one.',
'C05':'Exact for bodies below 65536 bytes; longer bodies are not refused and their length is reduced modulo 65536 (refuted, exact result proved).',
'C06':'Detected when the routing bit and the checksum byte stay unchanged and the length byte covers the header; also two errors at most 126 bits apart. Flipping the routing bit moves the checksum position and can be accepted (refuted).',
'C07':'Detected when the length byte is the true header size; otherwise body bytes can lie outside both checksums (refuted).',
'C08':'C08_panics_exactly says for every key, byte string and spare capacity when Decode panics. Exact conditions for the panic, all of which involve an inconsistent length byte or a body beyond 65535; no panic when the length byte is 1..header size and HL+FDL is below 65536. Refuted for length byte 0 in any buffer below 255 bytes.',
'C10':'All codes except the body checksum failure, which is reported as 137 (refuted). C10_every_outcome gives the outcome (a panic or a code) of every byte string with every key and spare capacity.',
'C11':'Every input, every prior receiver contents, every key.',
'C12':'Every packet, including those whose encoding fails.',
'C13':'Refuted for every header-only packet: Decode answers 132.',
'C20':'Holds when the frame has the true header size, nothing after the checksum, no encryption, and a body whose own decode-encode is the identity; refuted for unknown subrecords and trailing bytes.',
'C21':'Packets lose acceptance when cut anywhere up to the first checksum byte; minimal lengths for all decoders of fixed fields. Cutting the last byte of a multi-byte read is accepted (refuted for packets, records, liquid sensors and counters).',
'C22':'Everything but fields the flags declare absent is independent of the old contents; those fields stay stale and record sets are appended to (refuted).',

'C40':'Every sequence of encoded frames of at most 65545 bytes followed by any stream, in any segmentation; a frame of 65547 bytes is cut after 11 bytes (refuted), and every longer frame is cut short.',
'C41':'Every stream, every segmentation, all runs including those that panic.',
'C42':'Every accepted data packet, every buffer contents behind it, every storage outcome; the answer decodes wherever it is stored.',
'C43':'Every packet on which Decode fails; the stream goes on with the following frames.',
'C44':'Packets without record confirmations, and whole streams; a record confirmation stops the processing of its packet and the positions after it are lost (refuted).',
'C45':'Every accepted packet, every saved record.',
'C46':'Packets and whole connections; the identity of a packet cut short by a confirmation is included.',
'C47':'Every point of execution of a packet and of a whole connection.',
'C48':'Refuted for every packet with a position: the answer is positive whatever Save returns. When Save reports success, every configured storage has accepted the record.',
'C49':'Any number of storages with any outcomes.',
'C50':'Every configuration, any iteration order of the configuration map.',
'C51':'Every accepted data packet without record confirmations.',
'C52':'Every packet written on any stream is an answer accepted by Decode or the result code packet; the latter is rejected with 129 for every packet number (refuted).',
'C53':'Every response packet; also for the packets the receiver itself writes.',
'C54':'Every stream whose next frame does not begin with 1, after any sequence of frames.',
'C55':'C55_crash_exactly says for every stream when the handler crashes. No panic if every frame has a header length byte of 1..header size and declares fewer than 65536 bytes; refuted for an encoded frame with a body of 65527 bytes and for empty headers in small buffers.',
'C56':'Any number of connections, every interleaving, of a step semantics with one shared storage and arbitrary outcomes; the process panic is excluded.',
'C57':'Refuted: a peer that stays connected is never closed, whatever the time-to-live. After the peer has closed, the handler ends when the time-to-live has passed.',
'C58':'Refuted: the accept loop has no exit. Every accepted connection is served.',
'C59':'Every combination with one or no counter; with both, the exact number saved, which is wrong unless the low byte is 0 and the middle bytes agree (refuted).',
'C60':'All readings below 429496730 in litres and all readings in millimetres; larger ones overflow (refuted for all of them).',
'C61':'Refuted for every pair of packets differing in hemisphere flags only: all runs are the same.',
'C62':'Every packet id, object id, liquid level below 2^32 and all coordinates, every segmentation; the saved time is the constant in the program, not the argument.',
'C63':'Time-to-live up to 9223372036 seconds, listen address, all log level names; larger values overflow (refuted); in general the product is cut to 64 bits.',
'C64':'Every record within the field types; the wire format is stated field by field over the schema of docs/egts_sr_egtsplus_data.proto.',
'C65':'Every byte string.',
'C66':'Both directions for encoding; decoding of every byte string.',
'C67':'Every record; the coordinates are read back as the same floats (C92).',
'C68':'Every pair of records whose text flags are UTF-8; the JSON grammar is proved unambiguous. Records with other flags are not told apart (refuted); every record the receiver saves has UTF-8 flags.',
'C69':'Every stream, every segmentation, all runs including those that panic.',
'C70':'Every command line, every well-formed answer up to 1024 bytes (exact verdict) and every byte string (success only if deserved).',
'C71':'Refuted for every run: the time is a constant.',
'C72':'Refuted: no run exits with 0.',
'C73':'Given timeouts below 9223372036 s: exact. The documented default is refuted: without the flag no answer is ever read.',
'C74':'Sending condition and contents proved; identifiers out of range are sent modulo 65536 (refuted).',
'C75':'Refuted for every answer and every first segment lacking two or more bytes.',
'C76':'Refuted: every bare positive response for the packet sent causes a panic.',
'C77':'Every connector, settings, record and library outcome; a nil record is refused without a request.',
'C78':'Every settings and record.',
'C79':'Refuted for all settings: without db Init always fails. The exact condition for success is proved.',
'C80':'nil settings and bad numbers are refused before any contact, for all settings and outcomes; missing settings are accepted by four of the six connectors (refuted).',
'C81':'Holds for values that are not empty and free of special characters; refuted otherwise (empty password, spaces, slashes). What each connector dials is proved for all settings.',
'C82':'What is set up at start and what is sent for each record is exact, for all configurations, streams and failures; full delivery if no library call fails. Refuted with a failing storage: those behind it get nothing; and which storages are set up after a failure depends on map order.',
'C83':'The text printed is proved to be JSON of the record; printed at DEBUG and INFO (and unknown) levels; refuted at WARN and ERROR.',
'C84':'Non-negative reconnection counts and times up to 9223372036 s; refuted for negative counts; in general the numbers are cut to 64 bits.',
'C85':'The keys conn_ttl, host, port and log_level; the documented key con_live_sec is ignored (refuted).',
'C86':'An equivalence for each of the 14 types against a wire grammar of fields; quirks (counter 2 read as counter 1, four-byte altitude, shared read buffers) are part of the grammar. EGTS+ data is in C87 through the codec of C64-C66.',
'C87':'Equivalences with an inductive grammar of records and subrecords, for any nesting.',
'C88':'Equivalence for all fields of the packet. Decryption is any function to bytes.',
'C89':'Every packet within the field types. Floats are read back as the same floats (C92). Whether an empty slice is nil is a parameter: either text is allowed for it.',
'C90':'Exactly the packets whose EGTS+ records have finite floats have a text; a fuel level that is not a number is accepted by Decode and has none (refuted).',
'C91':'Packets whose strings are UTF-8, without unknown or empty EGTS+ fields, and received packets under the same conditions on the free strings only; user names that are not UTF-8 and unknown EGTS+ fields are lost (refuted by accepted frames).',
'C92':'Every finite float64 and every finite float32. strconv.AppendFloat is modelled by an exact search for the digits, not by its tables; reading rounds to nearest, ties to even, over the real numbers.',
'C93':'Equivalences for all 15 types, without conditions on the values. The float arithmetic of coordinates and position times is that of C30 and C31.',
'C94':'Equivalences with an outcome relation (bytes, error or panic).',
'C95':'Equivalence with an outcome relation that also gives the lengths stored in the packet. Byte fields hold bytes; encryption is any function to bytes.',
'C96':'The second written for a position is given exactly for every nanosecond. It is the earlier one for records always, for positions up to 239 ns before the next second and in the first half of 2010; later the last nanosecond of every second is written as the next second (refuted).',
'C97':'What the tool does is given for every text. All packets are sent if every line is ended; a last line without line end loses its last digit, so that its packet is not sent and the tool fails (refuted).',
'C98':'All interleavings of the tool and the receiver, answers received in any pieces of up to 2048 bytes; the receiver handles a packet in one step. Holds for files of packets that are rejected or are data packets without record confirmations: at most three steps per packet, and no deadlock. A file beginning with a response packet is never sent any further (refuted). Python socket.send is taken to pass on all bytes.',
'C99':'Holds if the header length declared is not 0 and header and body, as declared, end inside the slice, for bytes after the packet also if the body checksum does. Refuted: a packet with a header length three too large is accepted, refused or a panic depending on memory; a packet that ends with its header is accepted if two bytes FF follow.',
'C100':'Holds for up to 12 consecutive bits, any odd number of bits and two bits up to 32758 apart, when the length byte is the true header size. The checksum is sent low byte first, so 13 consecutive bits across the end of the body can go undetected (refuted); 12 is the limit.',
'C101':'Holds when the length byte and the routing flag are not hit, and in frames with routing fields the first bit is not. One wrong bit in the length byte can go undetected, as can the first and last bit of a header with routing fields (both refuted).',
'C102':'Every frame and every stream; a frame on which Decode panics ends the receiver and is not answered.',
'C103':'Every stream and run. The worst case has a header length one too small, so that a byte of the body checksum is missing, and a last record that is filled up with zeros.',
'C104':'All command lines, as sequences of byte strings; int has 64 bits. strconv.ParseFloat is an arbitrary function.',
'C105':'Holds without superfluous leading zeros. With one, every number from 8 on is read as another one or refused: -pid 010 is packet 8, -pid 08 an error (refuted).',
'C106':'Composes C104, C72, C62, C30 and C70. The network (name resolution, dialling, time of the answer) and time.Parse are arbitrary functions.',
'C107':'All streams and segmentations. A login is accepted with a packet the library cannot decode (C52), which is why there is a second round of answers.',
'C108':'The confirmation is the same. The records are saved again, as many and with the same contents (refuted): the receiver keeps nothing of a packet but the client number.',
'C109':'All 19 message types. Go names of fields are computed from the documented names by the naming rule of the generator. A message is what Protobuf.v makes of it: the list of values of each field.',
'C110':'The two uses of json.Unmarshal are any functions that read JSON strings and integers correctly, for texts without white space in front (encoding/json cuts it off). Numbers that are no documented reason are accepted too.',
'C111':'Holds, flag fields included, from three bytes on, unless the content ends after the first byte of the packet number or of an address; with fewer than three bytes all but the first two fields are empty. If half of a number is missing, the second byte of the number before it is taken for it, because both are read into one buffer (refuted, with the exact values).',
'C112':'The whole descriptor, by computation with a gzip reader that is part of the model (proved right on stored data, tested on a small compressed file). The descriptor as protoc writes it is part of the specification.',
'C113':'All 19 message types.',
}
