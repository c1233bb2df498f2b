{"id": "C01", "title": "Big-endian byte accessors", "statement": "get_u16/get_u24/get_u32 return the big-endian value of the first 2/3/4 bytes of a slice; set_u16/set_u24/set_u32 store exactly the big-endian bytes of the value (u24 keeps the low 24 bits), leave every later byte unchanged, and reading back what was written returns the value written. Slices that are too short abort; nothing else does.", "quantifier": "every slice and every value", "why_tests_cant": "2^16..2^32 values times all slice contents; unit tests check one value per width", "anchors": ["src/bytes.rs: Bytes::get_u16,set_u16,get_u24,set_u24,get_u32,set_u32"]}
{"id": "C02", "title": "TS header accessors read the ISO/IEC 13818-1 fields", "statement": "is_sync, is_error, is_pusi, get_pid, is_scrambled, is_adaptation, is_payload, get_cc each return the value of the standard's header bit field they are named after, and depend on no other bit of the packet.", "quantifier": "every packet of at least 4 bytes (every combination of header fields and payload)", "why_tests_cant": "2^32 headers; a wrong mask is visible only on particular neighbouring bits", "anchors": ["src/ts/mod.rs: is_sync,is_error,is_payload,is_pusi,is_adaptation,is_scrambled,get_pid,get_cc,get_adaptation_size"]}
{"id": "C03", "title": "TS header setters touch only their own field", "statement": "set_pid, set_cc, set_payload_0/1 and set_pusi_0/1 store the new value in their own field and leave every other header field and every payload byte as it was. set_pid/set_cc outside the field range abort in builds with debug assertions.", "quantifier": "every packet, every pid < 8192 and cc < 16", "why_tests_cant": "frame conditions over all other bits cannot be sampled", "anchors": ["src/ts/mod.rs: set_pid,set_cc,set_payload_0,set_payload_1,set_pusi_0,set_pusi_1"]}
{"id": "C04", "title": "TS payload offset", "statement": "get_payload_offset is 4 when there is no adaptation field and 5 + adaptation length otherwise, for adaptation lengths up to 250. Longer (invalid) adaptation lengths abort in builds with overflow checks and wrap to a wrong small offset in other builds, and a packet without payload still yields a nonzero offset: the documented 'returns 0 if invalid' never happens.", "quantifier": "every packet, both build profiles", "why_tests_cant": "the doc comment's contract is about all malformed packets", "anchors": ["src/ts/mod.rs: get_payload_offset"]}
{"id": "C05", "title": "PCR write/read round trip", "statement": "set_pcr writes the value in the standard's 33-bit base, 6 reserved bits set to one, 9-bit extension layout in bytes 6..11 and changes no other byte; get_pcr after set_pcr returns the value for every pcr from 0 to PCR_MAX; get_pcr of any packet is base*300+extension of that layout.", "quantifier": "every packet of at least 12 bytes, every pcr in [0, PCR_MAX]", "why_tests_cant": "2.5e12 values; carry between the base and extension parts", "anchors": ["src/ts/pcr.rs: set_pcr,get_pcr,PCR_MAX,PCR_NONE"]}
{"id": "C06", "title": "PCR presence flag", "statement": "is_pcr is true exactly for packets that have an adaptation field of at least 7 bytes with the PCR flag set; whenever it is true on a full packet, the PCR field it promises lies inside the adaptation field, and is_pcr itself never indexes outside a packet of at least 6 bytes.", "quantifier": "every packet", "why_tests_cant": "all combinations of adaptation control, length and flags", "anchors": ["src/ts/pcr.rs: is_pcr"]}
{"id": "C07", "title": "PCR difference across wrap-around", "statement": "For clock values up to PCR_MAX, pcr_delta(last, current) is the elapsed ticks when the clock did not wrap; when it wrapped, it is exactly one tick less than the true elapsed ticks modulo PCR_MAX+1 (the code adds PCR_MAX instead of PCR_MAX+1). It never aborts on such values and its result is always at most PCR_MAX.", "quantifier": "every pair of PCR values", "why_tests_cant": "the unit test asserts the off-by-one value; the modular law is over all pairs", "anchors": ["src/ts/pcr.rs: pcr_delta", "src/ts/tests.rs: test_pcr_delta_overflow"]}
{"id": "C08", "title": "STC estimate and clock conversions", "statement": "pcr_to_stc returns last_pcr plus the floor of last_delta*bytes/last_bytes and aborts (or wraps, without overflow checks) exactly when last_bytes is zero or a 64-bit intermediate overflows; on a constant-rate stream it predicts the next PCR exactly; pcr_to_us and pcr_to_ms are the floor of the tick count over 27 and 27000; pcr_delta_bitrate is floor(8*bytes/ms) and aborts exactly when delta is below one millisecond (or 8*bytes overflows).", "quantifier": "all u64 arguments, both build profiles", "why_tests_cant": "overflow and division by zero are at boundaries tests do not sample", "anchors": ["src/ts/pcr.rs: pcr_to_stc,pcr_to_us,pcr_to_ms,pcr_delta_bitrate"]}
{"id": "C09", "title": "PCR jitter sign and magnitude", "statement": "pcr_jitter_ns(pcr, stc) is zero when pcr equals stc; it is the signed time difference in nanoseconds, truncated toward zero, when pcr is at most one second ahead of or behind stc without a clock wrap. Across a wrap it is off by one tick.", "quantifier": "every pair of PCR values up to PCR_MAX", "why_tests_cant": "signed wrap arithmetic over all pairs", "anchors": ["src/ts/pcr.rs: pcr_jitter_ns"]}
{"id": "C10", "title": "PES timestamps", "statement": "get_pts and get_dts return the 33-bit value carried in the standard's 3+15+15 bit marker-separated layout, for any prefix and marker bits, and the result is always below 2^33.", "quantifier": "every PES header, every 33-bit timestamp", "why_tests_cant": "2^33 values times free marker bits", "anchors": ["src/es/pes.rs: get_pts,get_dts"]}
{"id": "C11", "title": "PES header accessors", "statement": "is_prefix, is_syntax_spec, get_length, is_pts, is_dts and get_payload_offset decode the corresponding PES header fields for every packet; the payload offset is 6 for stream ids without the optional header and 9 + header_data_length otherwise and never overflows.", "quantifier": "every PES packet", "why_tests_cant": "all header bytes", "anchors": ["src/es/pes.rs: is_prefix,is_syntax_spec,get_length,get_payload_offset,is_pts,is_dts"]}
{"id": "C12", "title": "PTS difference and conversion", "statement": "pts_delta is the elapsed ticks without wrap and exactly one less than the true elapsed ticks modulo 2^33 with wrap, for values below 2^33; pts_to_ms is the floor of ticks/90.", "quantifier": "every pair of timestamps below 2^33", "why_tests_cant": "all pairs", "anchors": ["src/es/pes.rs: pts_delta,pts_to_ms"]}
{"id": "C13", "title": "crc32b is CRC-32/MPEG-2", "statement": "crc32b of any byte string equals the bit-serial CRC with generator 0x04C11DB7, initial value all ones, most significant bit first, no final inversion - that is, the remainder of polynomial division over GF(2); the 256-entry table has no wrong entry and the result fits in 32 bits.", "quantifier": "every byte string of any length", "why_tests_cant": "a wrong table entry shows only on inputs that index it; equality with the standard is over all inputs", "anchors": ["src/psi/utils/crc32.rs: CRC32B_TABLE,crc32b"]}
{"id": "C14", "title": "CRC residue", "statement": "Appending the big-endian crc32b of a byte string to it gives a string whose crc32b is zero, and only that 4-byte suffix does: a section passes the check exactly when the CRC over the whole section is zero.", "quantifier": "every byte string and every 4-byte suffix", "why_tests_cant": "universally quantified over content", "anchors": ["src/psi/utils/crc32.rs: crc32b", "src/psi/mod.rs: Psi::check"]}
{"id": "C15", "title": "Section check detects transmission errors", "statement": "If a complete section passes check, then the same section with any nonzero error confined to 32 consecutive bits fails it (in particular any single-bit error); in a section of at most 4098 bytes any two-bit or three-bit error fails it as well (the size field being unchanged).", "quantifier": "every accepted section, every error pattern of the class", "why_tests_cant": "the number of error patterns times contents is astronomically large", "anchors": ["src/psi/mod.rs: Psi::check,check_crc32", "src/psi/utils/crc32.rs: crc32b"]}
{"id": "C16", "title": "BCD conversions", "statement": "to_bcd writes the decimal digits of a value as nibbles and from_bcd reads nibbles as decimal digits; they are inverse to each other on 0..99 (u8), 0..9999 (u16) and 0..99999999 (u32). Non-decimal nibbles and out-of-range u8 values abort when debug assertions are on; out-of-range u16 and u32 values may return a wrong value silently (25600 gives 0).", "quantifier": "every value of each width, both build profiles", "why_tests_cant": "10^8 values", "anchors": ["src/psi/utils/bcd.rs: BCD for u8,u16,u32"]}
{"id": "C17", "title": "BCD time conversions", "statement": "u32 to_bcd_time/from_bcd_time convert seconds to HHMMSS and back, exact for 0..86399; longer durations lose whole days. u16 to_bcd_time converts minutes to HHMM; u16 from_bcd_time is its inverse only below 5 hours: from 05:00 the u8 multiplication overflows (abort with overflow checks, wrong value otherwise).", "quantifier": "every value, both build profiles", "why_tests_cant": "unit test covers one u32 value and never calls the u16 version", "anchors": ["src/psi/utils/bcd.rs: BCDTime for u16,u32"]}
{"id": "C18", "title": "MJD date conversion", "statement": "to_mjd/from_mjd convert between Unix time and Modified Julian Date: from_mjd(to_mjd t) is the midnight of t's day for every t representable in 16-bit MJD (1970-01-01 .. 2038-04-22), and the pair (MJD, BCD time) used by TDT, TOT, EIT and the local time offset descriptor is lossless over that whole range. MJD before 1970 aborts (overflow checks) or yields a huge time.", "quantifier": "every Unix time in range, every 16-bit MJD, both profiles", "why_tests_cant": "2.1e9 values", "anchors": ["src/psi/utils/mjd.rs: from_mjd,to_mjd", "src/psi/tdt.rs", "src/psi/eit.rs: EitItem::parse,assemble"]}
{"id": "C19", "title": "DVB text round trip", "statement": "Encoding a text with StringDVB::from_str in a supported single-byte code page and displaying it again returns the same text, for every text made of ASCII and characters of that code page; for UTF-8 it returns any text whatsoever.", "quantifier": "every text of any length, every supported code page", "why_tests_cant": "15 tables times 96 entries times all strings", "anchors": ["src/textcode/mod.rs: StringDVB::from_str,Display", "src/textcode/data.rs"]}
{"id": "C20", "title": "DVB text encoding of unrepresentable characters", "statement": "from_str never fails: every character outside the code page becomes a documented ASCII substitute (quotes, apostrophe, three dots) or '?', C1 control characters are dropped, and an unsupported code page falls back to UTF-8. Characters above U+FFFF are however truncated to 16 bits first, so some of them become unrelated characters instead of '?'.", "quantifier": "every Unicode text, every code page number", "why_tests_cant": "1.1 million scalar values times code pages", "anchors": ["src/textcode/mod.rs: StringDVB::from_str"]}
{"id": "C21", "title": "DVB text wire format round trip and size", "statement": "Reading back an assembled text gives the same text and code page for every text from_str can produce that is not empty (and, for ISO 6937, does not start with a control byte); size() is always exactly the number of bytes assemble appends; assemble_sized stores that number modulo 256 in front and appends nothing else.", "quantifier": "every StringDVB", "why_tests_cant": "code page selector byte rules over all code pages and contents", "anchors": ["src/textcode/mod.rs: StringDVB::assemble,assemble_sized,size,From<&[u8]>"]}
{"id": "C22", "title": "DVB text parsed from the air", "statement": "From<&[u8]> accepts every byte string without aborting. Not every parsed text survives re-assembly: selector bytes 0x00 and 0x0C..0x0F change on output, and texts with a reserved code page make Display fail, so to_string and Debug formatting abort.", "quantifier": "every byte string", "why_tests_cant": "adversarial input", "anchors": ["src/textcode/mod.rs: From<&[u8]>,Display,Debug"]}
{"id": "C23", "title": "DVB text display is safe", "statement": "Display of any StringDVB with a supported code page outputs only valid Unicode scalar values (the unchecked char conversion is never given a surrogate or out of range value), one per printable byte, replacing unmapped codes by '?' and dropping 0x80..0x9F.", "quantifier": "every code page, every byte", "why_tests_cant": "1440 table entries; unsafe code", "anchors": ["src/textcode/mod.rs: Display", "src/textcode/data.rs"]}
{"id": "C24", "title": "DVB text split", "statement": "split(size) cuts a text into pieces that concatenate to the original, keep the code page, each assemble to at most size bytes and are nonempty, provided size leaves room; UTF-8 pieces never cut a character of up to 3 bytes. It cuts 4-byte characters, and for sizes that leave no room for one character it never terminates.", "quantifier": "every text, every size", "why_tests_cant": "termination and concatenation over all contents and sizes", "anchors": ["src/textcode/mod.rs: StringDVB::split"]}
{"id": "C25", "title": "DVB text truncate", "statement": "truncate(size) leaves texts of at most size bytes unchanged, and otherwise keeps the first size-3 bytes followed by three dots, for size >= 3; it aborts exactly when size < 3 and the text is longer. It can cut a UTF-8 character in half.", "quantifier": "every text, every size", "why_tests_cant": "all sizes", "anchors": ["src/textcode/mod.rs: StringDVB::truncate"]}
{"id": "C26", "title": "Language code conversion", "statement": "lang::convert maps an ISO 639-1 code to its bibliographic ISO 639-2 code and every ISO 639-2 code (terminological or bibliographic) back to the ISO 639-1 code: converting a two-letter code twice returns it, the table has no ambiguous code, and any other string gives None.", "quantifier": "every string", "why_tests_cant": "all strings; table consistency over 143 rows", "anchors": ["src/textcode/lang.rs: convert,LANG_LIST"]}
{"id": "C27", "title": "Descriptor wire layout", "statement": "Each supported descriptor (0x09, 0x0A, 0x0E, 0x40, 0x41, 0x43, 0x44, 0x48, 0x4D, 0x4E, 0x52, 0x58, 0x5A, 0x83) assembles to the bit layout of ISO/IEC 13818-1 / EN 300 468 for all field values in range, and parsing reads those fields wherever the reserved bits are arbitrary.", "quantifier": "every descriptor value in field range", "why_tests_cant": "products of field ranges; neighbouring fields overlap bytes", "anchors": ["src/psi/descriptors/x09.rs: parse, assemble", "src/psi/descriptors/x0a.rs: parse, assemble", "src/psi/descriptors/x0e.rs: parse, assemble", "src/psi/descriptors/x40.rs: parse, assemble", "src/psi/descriptors/x41.rs: parse, assemble", "src/psi/descriptors/x43.rs: parse, assemble", "src/psi/descriptors/x44.rs: parse, assemble", "src/psi/descriptors/x48.rs: parse, assemble", "src/psi/descriptors/x4d.rs: parse, assemble", "src/psi/descriptors/x4e.rs: parse, assemble", "src/psi/descriptors/x52.rs: parse, assemble", "src/psi/descriptors/x58.rs: parse, assemble", "src/psi/descriptors/x5a.rs: parse, assemble", "src/psi/descriptors/x83.rs: parse, assemble"]}
{"id": "C28", "title": "Descriptor round trip", "statement": "Parsing an assembled descriptor returns the descriptor, for every descriptor whose fields fit their wire widths, whose total length fits one byte and whose values the wire units can hold (frequencies in tens or hundreds of Hz, orbital positions in tenths of a degree, texts that survive re-reading, local time offsets below 5 hours), and for the dedicated descriptor types only for those: a local time offset of 5 hours aborts the reader.", "quantifier": "every well-formed descriptor of each kind", "why_tests_cant": "each test checks one value per kind", "anchors": ["src/psi/descriptors/mod.rs: Descriptor::parse,assemble", "src/psi/descriptors/x09.rs", "src/psi/descriptors/x0a.rs", "src/psi/descriptors/x0e.rs", "src/psi/descriptors/x40.rs", "src/psi/descriptors/x41.rs", "src/psi/descriptors/x43.rs", "src/psi/descriptors/x44.rs", "src/psi/descriptors/x48.rs", "src/psi/descriptors/x4d.rs", "src/psi/descriptors/x4e.rs", "src/psi/descriptors/x52.rs", "src/psi/descriptors/x58.rs", "src/psi/descriptors/x5a.rs", "src/psi/descriptors/x83.rs"]}
{"id": "C29", "title": "Descriptor size agrees with assembly", "statement": "size() equals the number of bytes assemble appends for every well-formed descriptor. It does not for extended event descriptors with items (the two length bytes per item are not counted, which also makes the emitted length byte wrong) nor for over-long raw descriptors (which assemble to nothing).", "quantifier": "every descriptor", "why_tests_cant": "section packing relies on it for all contents", "anchors": ["src/psi/descriptors/x4e.rs: size,assemble", "src/psi/descriptors/raw.rs", "src/psi/descriptors/mod.rs: Descriptors::size"]}
{"id": "C30", "title": "Descriptor loop round trip", "statement": "Assembling a list of well-formed descriptors and parsing the bytes returns the same list in order; parsing appends to what was already there; the returned length is the number of bytes appended.", "quantifier": "every list of descriptors", "why_tests_cant": "lists of any length and mix", "anchors": ["src/psi/descriptors/mod.rs: Descriptors::parse,assemble,size,push,len"]}
{"id": "C31", "title": "Unknown descriptors are preserved byte for byte", "statement": "A descriptor loop made only of tags without dedicated support parses to raw descriptors that re-assemble to exactly the original bytes; an incomplete trailing descriptor is ignored; the number of parsed descriptors is the number of complete TLV records.", "quantifier": "every byte string", "why_tests_cant": "any nesting of lengths", "anchors": ["src/psi/descriptors/mod.rs: Descriptors::parse", "src/psi/descriptors/raw.rs"]}
{"id": "C32", "title": "Descriptor parsing robustness", "statement": "Parsing a descriptor loop never aborts for loops without tags 0x43, 0x44, 0x48, 0x4D, 0x4E, 0x58, 0x5A, whatever the bytes. For each of those tags there are byte strings on which parsing aborts (index out of bounds in length checks, overflow in unit conversion, non-BCD digits).", "quantifier": "every byte string, both build profiles", "why_tests_cant": "adversarial input space", "anchors": ["src/psi/descriptors/mod.rs: Descriptor::parse", "src/psi/descriptors/x48.rs: check", "src/psi/descriptors/x4d.rs: check", "src/psi/descriptors/x4e.rs: check,parse", "src/psi/descriptors/x44.rs: parse", "src/psi/descriptors/x5a.rs: parse", "src/psi/descriptors/x58.rs: parse"]}
{"id": "C33", "title": "Descriptor clone", "statement": "Cloning a descriptor returns an equal descriptor whenever it was built by a typed constructor or carries an unsupported tag; cloning a raw descriptor that carries a supported tag (which parsing produces for wrong lengths) aborts.", "quantifier": "every descriptor", "why_tests_cant": "depends on the tag/type combination", "anchors": ["src/psi/descriptors/mod.rs: Clone for Descriptor"]}
{"id": "C34", "title": "Finalize produces a valid section", "statement": "finalize on an unfinished section of at least 4 and at most 4094 bytes appends the CRC, sets the 12-bit length field, keeps the flag bits and all other bytes, and the result passes check; finalizing again changes nothing.", "quantifier": "every section content and length", "why_tests_cant": "all contents", "anchors": ["src/psi/mod.rs: Psi::finalize,check"]}
{"id": "C35", "title": "Packetisation of a section", "statement": "demux appends ceil((size+1)/184) packets of 188 bytes to the output without touching what was there; each has the sync byte, the pid, payload flag, no adaptation field, and consecutive continuity counters modulo 16; only the first has the payload start flag followed by pointer field 0; payloads concatenate to the section followed by 0xFF stuffing; the counter left behind is the next one. An empty section instead yields one packet of 0xFF bytes without sync byte.", "quantifier": "every section, pid, counter and output buffer", "why_tests_cant": "all sizes around multiples of 184", "anchors": ["src/psi/mod.rs: Psi::demux", "src/ts/mod.rs: FILL_PACKET"]}
{"id": "C36", "title": "Section reassembly inverts packetisation", "statement": "Feeding the packets produced by demux to mux, starting from any state whatsoever, leaves exactly the original section in the buffer and it passes check; before the last packet it does not.", "quantifier": "every section, every prior state of the receiver", "why_tests_cant": "all sections and histories", "anchors": ["src/psi/mod.rs: Psi::mux,demux,push,clear"]}
{"id": "C37", "title": "Section reassembly for any legal packetisation", "statement": "A section carried in consecutive packets with arbitrary adaptation fields (payload chunks of any size, at least 3 bytes in the first two together), a leading pointer field, trailing stuffing and interleaved packets without payload is reassembled exactly and not reported before it is complete: whatever the receiver state before if the pointer field is 0, otherwise if the receiver is empty or the counter does not follow.", "quantifier": "every split into chunks, every adaptation field, every interleaving of payload-less packets", "why_tests_cant": "all packetisations", "anchors": ["src/psi/mod.rs: Psi::mux"]}
{"id": "C38", "title": "Loss handling in section reassembly", "statement": "A continuation packet whose counter does not follow clears the partial section, so that a section with missing packets is not delivered (if at most 16 of its packets follow the gap); a start packet with pointer field 0 always restarts cleanly. But after a loss the counter is not updated and a continuation packet that happens to match it is taken for the start of a section.", "quantifier": "every history of packets", "why_tests_cant": "histories", "anchors": ["src/psi/mod.rs: Psi::mux"]}
{"id": "C39", "title": "Sections that start in the middle of a packet", "statement": "When a start packet with nonzero pointer field follows in sequence, the bytes before the pointer complete the section in progress. A section that begins there and continues in later continuation packets is lost, and the previous section stays visible to check.", "quantifier": "every pair of consecutive sections", "why_tests_cant": "histories with nonzero pointer fields", "anchors": ["src/psi/mod.rs: Psi::mux"]}
{"id": "C40", "title": "Robustness of section reassembly", "statement": "mux aborts on a 188-byte packet exactly when it has a payload and (with overflow checks) an adaptation length above 250, or it is a start packet that begins a fresh section and whose pointer field (1..182) points beyond the packet, or (with overflow checks, never reached by mux itself) the stored counter is 255. All other packets are handled without aborting, from every state.", "quantifier": "every packet, every reachable state, both profiles", "why_tests_cant": "adversarial input", "anchors": ["src/psi/mod.rs: Psi::mux", "src/ts/mod.rs: get_payload_offset"]}
{"id": "C41", "title": "Memory use of section reassembly", "statement": "Without start packets carrying a nonzero pointer field the reassembly buffer never exceeds 4098 bytes; with them it can be driven to any length.", "quantifier": "every packet sequence", "why_tests_cant": "unbounded histories", "anchors": ["src/psi/mod.rs: Psi::mux"]}
{"id": "C42", "title": "Reassembly state invariant", "statement": "In every state reachable by mux from a fresh receiver, size is zero with fewer than 3 bytes buffered, or equals 3 plus the length field stored in the buffered header.", "quantifier": "every packet sequence", "why_tests_cant": "inductive invariant", "anchors": ["src/psi/mod.rs: Psi::mux,push,clear"]}
{"id": "C43", "title": "Section equality", "statement": "Two complete sections compare equal exactly when sizes and stored CRCs agree; sections with different content can compare equal only by CRC collision (and do), and comparing a fresh receiver with itself aborts.", "quantifier": "every pair of sections", "why_tests_cant": "all pairs", "anchors": ["src/psi/mod.rs: PartialEq for Psi,get_crc32"]}
{"id": "C44", "title": "PAT end to end", "statement": "A PAT with up to 253 programs, sent with demux and received packet by packet (mux, then parse when check succeeds) from any receiver state, is recovered exactly: version, transport stream id and every program in order. Programs beyond the 253rd are silently dropped.", "quantifier": "every PAT, pid, counter, receiver state", "why_tests_cant": "all tables", "anchors": ["src/psi/pat.rs: Pat::parse,psi_list_assemble", "src/psi/mod.rs: PsiDemux::demux"]}
{"id": "C45", "title": "PMT end to end", "statement": "A PMT without program-level descriptors whose descriptors round-trip (C28) is recovered exactly through demux/mux/parse, across any number of sections. With program-level descriptors it is not: parse reads them one byte early.", "quantifier": "every PMT, pid, counter, receiver state", "why_tests_cant": "the unit test has an empty program descriptor loop", "anchors": ["src/psi/pmt.rs: Pmt::parse,psi_init,psi_list_assemble,PmtItem::parse,assemble"]}
{"id": "C46", "title": "Elementary stream classification", "statement": "get_stream_type depends only on stream_type and, for private data, on the first recognised descriptor tag in order.", "quantifier": "every stream type and descriptor list", "why_tests_cant": "all lists", "anchors": ["src/psi/pmt.rs: PmtItem::get_stream_type", "src/es/mod.rs: StreamType"]}
{"id": "C47", "title": "NIT end to end", "statement": "A NIT with network descriptors and transport streams, whose descriptors round-trip (C28), is recovered exactly through demux/mux/parse, across any number of sections.", "quantifier": "every NIT, pid, counter, receiver state", "why_tests_cant": "all tables", "anchors": ["src/psi/nit.rs"]}
{"id": "C48", "title": "SDT end to end", "statement": "An SDT with any number of services, whose descriptors round-trip (C28), is recovered exactly through demux/mux/parse, across any number of sections.", "quantifier": "every SDT, pid, counter, receiver state", "why_tests_cant": "all tables", "anchors": ["src/psi/sdt.rs"]}
{"id": "C49", "title": "EIT present/following end to end", "statement": "An EIT present/following table (one event per section, 1 to 256 events, descriptors that round-trip) is recovered exactly through demux/mux/parse, with correct section numbers, last section number and last table id.", "quantifier": "every EIT p/f table", "why_tests_cant": "all tables", "anchors": ["src/psi/eit.rs: Eit::psi_list_assemble,parse,demux"]}
{"id": "C50", "title": "EIT schedule end to end", "statement": "No event of an EIT schedule of fewer than 504 events is lost, duplicated or reordered by demux/mux/parse when sending does not abort; for longer schedules exactly the sections whose table id stays in the EIT range are received, so a sorted schedule of 520 events can lose 8.", "quantifier": "every EIT schedule", "why_tests_cant": "all event lists", "anchors": ["src/psi/eit.rs: Eit::psi_list_assemble,parse,demux"]}
{"id": "C51", "title": "EIT schedule segmentation", "statement": "Events of an EIT schedule are placed in the 3-hour segment of their start time (section number div 8 = hours since midnight div 3). The code violates this: the first event is placed one segment late and gaps of more than one segment are not skipped; events out of chronological order abort or wrap.", "quantifier": "every EIT schedule", "why_tests_cant": "the unit test encodes the wrong segment", "anchors": ["src/psi/eit.rs: Eit::psi_list_assemble"]}
{"id": "C52", "title": "TDT and TOT end to end", "statement": "A TDT or TOT with any time from 1970-01-01 to 2038-04-22 (and, for TOT, any well-formed descriptors that round-trip) is recovered exactly through demux/mux/parse.", "quantifier": "every time in range", "why_tests_cant": "2.1e9 times", "anchors": ["src/psi/tdt.rs", "src/psi/tot.rs"]}
{"id": "C53", "title": "Section numbering and section size limits", "statement": "Every section emitted for PAT, PMT, NIT and SDT is at most 1024 bytes (EIT: 4096) when the descriptor loops of the table and of each item fit on their own; sections are numbered 0..last consecutively and all carry the same last_section_number, version and table header. Packing of PMT, NIT and SDT is greedy: no section could have taken the first item of the next one. A service whose descriptors alone exceed the limit yields an oversize section behind an empty one.", "quantifier": "every table", "why_tests_cant": "packing boundary over all size combinations", "anchors": ["src/psi/mod.rs: PsiDemux::demux", "src/psi/pat.rs", "src/psi/pmt.rs", "src/psi/nit.rs", "src/psi/sdt.rs", "src/psi/eit.rs"]}
{"id": "C54", "title": "Tables ignore sections that are not theirs", "statement": "parse leaves the table value unchanged when the section has another table id, is too short, incomplete or fails the CRC (TDT has no CRC).", "quantifier": "every section and table value", "why_tests_cant": "all contents", "anchors": ["src/psi/pat.rs: check,parse", "src/psi/pmt.rs", "src/psi/nit.rs", "src/psi/sdt.rs", "src/psi/eit.rs", "src/psi/tdt.rs", "src/psi/tot.rs"]}
{"id": "C55", "title": "Table parsing robustness", "statement": "PAT parse never aborts on any state reachable by mux. PMT, NIT and TOT parse abort on CRC-valid sections whose descriptor loop length exceeds the section; TDT parse aborts on an incomplete 8-byte section. TOT parse takes its descriptors from the whole buffer, not the section: with a longer loop length it returns the CRC, and bytes of the section behind it, as descriptors.", "quantifier": "every reachable receiver state", "why_tests_cant": "adversarial but CRC-valid input", "anchors": ["src/psi/pat.rs: parse", "src/psi/pmt.rs: parse", "src/psi/nit.rs: parse", "src/psi/tot.rs: parse", "src/psi/tdt.rs: check,parse"]}
{"id": "C56", "title": "Packet reader is independent of read sizes", "statement": "The sequence of packets TsReader delivers depends only on the byte stream, not on how the underlying reader splits it into reads; it equals: skip to the next 0x47, take 188 bytes, repeat, and report end of stream when fewer remain. The rest of the caller's buffer beyond 188 bytes is untouched.", "quantifier": "every byte stream, every schedule of short reads", "why_tests_cant": "all schedules", "anchors": ["src/reader/mod.rs: TsReader::read"]}
{"id": "C57", "title": "Packet reader on aligned streams", "statement": "A stream that is a concatenation of 188-byte packets starting with 0x47 (after any prefix without 0x47) is delivered completely and in order, then end of stream is reported, repeatedly.", "quantifier": "every aligned stream, every schedule", "why_tests_cant": "all streams", "anchors": ["src/reader/mod.rs: TsReader::read"]}
{"id": "C58", "title": "Packet reader and I/O errors", "statement": "An error of the underlying reader is returned to the caller and a later call continues with the remaining bytes; but bytes of a partially read packet are lost, so a transient error (interrupt, would-block) in the middle of a packet loses or misaligns it.", "quantifier": "every schedule of reads and errors", "why_tests_cant": "error points", "anchors": ["src/reader/mod.rs: TsReader::read"]}
{"id": "C59", "title": "Draining adaptor is lossless", "statement": "Reading through TsDrain with any sequence of nonzero buffer sizes yields exactly the concatenation of the packets of the inner reader, without loss, duplication or uninitialised bytes; a zero-length read at a packet boundary loses a packet.", "quantifier": "every packet sequence, every sequence of buffer sizes", "why_tests_cant": "all schedules of buffer sizes", "anchors": ["src/reader/drain.rs: TsDrain::read,new"]}
{"id": "C60", "title": "Debug views of a packet", "statement": "The Debug text of TsPacket and of TsAdaptation, plain and pretty, shows the header fields of ISO/IEC 13818-1 with their decimal values in a fixed order, the flags of the adaptation field exactly when it is present and not empty, and a PCR exactly when its flag is set; packets with equal texts have equal shown fields. It leaves out transport_priority, and it shows a PCR for adaptation fields too short to hold one, for which is_pcr is false.", "quantifier": "every packet, both build modes", "why_tests_cant": "no test looks at the text", "anchors": ["src/ts/debug.rs: TsPacket::fmt,TsAdaptation::fmt"]}
{"id": "C61", "title": "Any mixture of sections on one PID", "statement": "For any list of sections with a correct length field (valid or damaged, of the table or of others, from any sender) in any packetisation in which each starts behind a pointer field of 0 and ends with its last packet, pushing every packet into one Psi and handing it to the table afterwards gives exactly the sections that are long enough, have the table id of the table and a correct CRC, each read once and added in order; with overflow checks it aborts exactly if one of these cannot be read. A packet without payload behind a complete section makes the table read it twice; a TDT section split over two packets aborts.", "quantifier": "every list of sections, every packetisation, every receiver state", "why_tests_cant": "mixtures and packetisations of any length", "anchors": ["src/psi/mod.rs: Psi::mux,Psi::check", "src/psi/pat.rs: check,parse", "src/psi/pmt.rs: check,parse", "src/psi/nit.rs: check,parse", "src/psi/sdt.rs: check,parse", "src/psi/eit.rs: check,parse", "src/psi/tdt.rs: check,parse", "src/psi/tot.rs: check,parse"]}
{"id": "C62", "title": "Tables followed through a byte stream", "statement": "Reading a byte stream with TsReader to its end and handing the packets of one PID to mux and parse gives the same as receiving exactly those packets, whatever other PIDs, garbage in front, and sizes of reads; so a table sent with demux on that PID, and any number of tables one after another, arrive complete, in order and unchanged, and so do the sections of any other sender.", "quantifier": "every stream, every schedule of reads, every list of tables", "why_tests_cant": "no test connects reader, mux and parse", "anchors": ["src/reader/mod.rs: TsReader::read", "src/ts/mod.rs: get_pid", "src/psi/mod.rs: Psi::mux,PsiDemux::demux", "src/psi/eit.rs: parse", "src/psi/mod.rs: parse", "src/psi/nit.rs: parse", "src/psi/pat.rs: parse", "src/psi/pmt.rs: parse", "src/psi/sdt.rs: parse", "src/psi/tdt.rs: parse", "src/psi/tot.rs: parse"]}
{"id": "C63", "title": "Tables sent repeatedly accumulate", "statement": "After any list of tables on a PID the receiver's table holds the items of all of them in order and the header fields of the last. So a repeated table (every table is repeated in a broadcast) is not received as itself, and after a version change the items of the old version remain.", "quantifier": "every list of tables, every old content of the receiver", "why_tests_cant": "no test sends a table twice", "anchors": ["src/psi/pat.rs: parse", "src/psi/pmt.rs: parse", "src/psi/nit.rs: parse", "src/psi/sdt.rs: parse", "src/psi/eit.rs: parse", "src/psi/tot.rs: parse"]}
{"id": "C64", "title": "Constants of the delivery descriptors", "statement": "The code values in constants.rs are those of EN 300 468 for modulation, FEC, polarisation, bandwidth, guard interval and so on, distinct within a group and small enough for the field they go into, so that a descriptor built from them carries the intended meaning. The code violates this in one place: FEC_OUTER_RS has the value of FEC_OUTER_NO_CODING, so a cable descriptor with it announces no outer coding. The set_bits! macro packs values that fit their widths and lets an oversize value overwrite its neighbours.", "quantifier": "every constant, every combination of values", "why_tests_cant": "no test uses the constants against the standard", "anchors": ["src/constants.rs", "src/bits.rs: set_bits!", "src/psi/descriptors/x43.rs", "src/psi/descriptors/x44.rs", "src/psi/descriptors/x5a.rs"]}
{"id": "C65", "title": "Access to received descriptors", "statement": "A received descriptor loop holds one element per complete record, in order, under the tag of the record; get beyond the end gives None. Asking an element for the type of its tag succeeds exactly if the record has a length that suits the type, else it aborts: for every type but 0x40 there is a record that parses and aborts a consumer that dispatches on the tag. push appends one record to the loop that is sent and get_mut changes one record only.", "quantifier": "every descriptor loop, both build modes", "why_tests_cant": "all loops and lengths", "anchors": ["src/psi/descriptors/mod.rs: Descriptor,Descriptors"]}
{"id": "C66", "title": "Forwarding descriptors", "statement": "A descriptor read from a stream and written again comes out byte for byte exactly if it holds nothing that its type does not keep (reserved bits are ones, texts are in the form the library writes, last digit of the symbol rate is zero, no items in an extended event); service lists, stream identifiers and unknown descriptors always do. For every other type a record exists that is changed; a language code that starts with 0x10 gives a record shorter than its length byte, which swallows the record behind it, and a name of 255 bytes without a code page selector gives a length byte that wraps.", "quantifier": "every descriptor record and loop", "why_tests_cant": "all records; no test parses and assembles foreign bytes of every type", "anchors": ["src/psi/descriptors/mod.rs: check,parse,assemble,size", "src/psi/descriptors/raw.rs: check,parse,assemble,size", "src/psi/descriptors/x09.rs: check,parse,assemble,size", "src/psi/descriptors/x0a.rs: check,parse,assemble,size", "src/psi/descriptors/x0e.rs: check,parse,assemble,size", "src/psi/descriptors/x40.rs: check,parse,assemble,size", "src/psi/descriptors/x41.rs: check,parse,assemble,size", "src/psi/descriptors/x43.rs: check,parse,assemble,size", "src/psi/descriptors/x44.rs: check,parse,assemble,size", "src/psi/descriptors/x48.rs: check,parse,assemble,size", "src/psi/descriptors/x4d.rs: check,parse,assemble,size", "src/psi/descriptors/x4e.rs: check,parse,assemble,size", "src/psi/descriptors/x52.rs: check,parse,assemble,size", "src/psi/descriptors/x58.rs: check,parse,assemble,size", "src/psi/descriptors/x5a.rs: check,parse,assemble,size", "src/psi/descriptors/x83.rs: check,parse,assemble,size", "src/textcode/mod.rs: StringDVB"]}
{"id": "C67", "title": "Sections packed back to back", "statement": "When each packet ends one section and starts the next (pointer field not 0), every section is read once and in order, from any receiver state and mixed with sections that have packets of their own. A packet that ends two or more sections delays the rest: of a chain of packets exactly as many sections are read as it has packets, and the others are lost when a section starts with pointer field 0. A section that is complete in the packet in which it starts (pointer field 0) while another one follows is read twice, the following one is lost, and later ones are looked for in the wrong place until the next pointer field 0.", "quantifier": "every list of sections, every packetisation into chains, every receiver state", "why_tests_cant": "packetisations and lengths of any number", "anchors": ["src/psi/mod.rs: Psi::mux,Psi::push", "src/psi/pat.rs: parse", "src/psi/pmt.rs: parse", "src/psi/nit.rs: parse", "src/psi/sdt.rs: parse", "src/psi/eit.rs: parse", "src/psi/tot.rs: parse"]}
{"id": "C68", "title": "Constant bit rate reader as it stands", "statement": "The unfinished Cbr (not compiled by lib.rs) puts the packets of the inner reader one after another into its first block, takes the PID of the first packet with a PCR and keeps the last PCR of that PID, passes on errors and the end of the stream without change, but returns 188 for each packet although it never writes the caller's buffer; the block is never emptied, so over a TsReader read number 26596 aborts.", "quantifier": "every stream of packets, every inner reader, both build modes", "why_tests_cant": "the module is not compiled and has no tests", "anchors": ["src/mux/cbr/mod.rs: Cbr::new,Cbr::analyze,Cbr::push_packet,Cbr::read"]}
{"id": "C69", "title": "Tables of foreign senders pass through", "statement": "A table collected from any mixture of foreign sections on a PID (any packetisation, any reserved bits) and sent on by this library is received again as the same table, if its texts and times are of a form that the library keeps: PAT up to 253 programs, PMT without program descriptors, NIT whose network descriptors fit one section, SDT, EIT present/following, TOT, TDT. The condition is needed: with a language code that starts with 0x10 the descriptor behind it is gone in the table that is sent on.", "quantifier": "every list of foreign sections, packetisation, receiver state, build mode, PID, counter", "why_tests_cant": "no test parses foreign sections and assembles the result", "anchors": ["src/psi/pat.rs: parse,demux", "src/psi/pmt.rs: parse,demux", "src/psi/nit.rs: parse,demux", "src/psi/sdt.rs: parse,demux", "src/psi/eit.rs: parse,demux", "src/psi/tdt.rs: parse,demux", "src/psi/tot.rs: parse,demux", "src/psi/descriptors/mod.rs", "src/psi/descriptors/raw.rs", "src/psi/descriptors/x09.rs", "src/psi/descriptors/x0a.rs", "src/psi/descriptors/x0e.rs", "src/psi/descriptors/x40.rs", "src/psi/descriptors/x41.rs", "src/psi/descriptors/x43.rs", "src/psi/descriptors/x44.rs", "src/psi/descriptors/x48.rs", "src/psi/descriptors/x4d.rs", "src/psi/descriptors/x4e.rs", "src/psi/descriptors/x52.rs", "src/psi/descriptors/x58.rs", "src/psi/descriptors/x5a.rs", "src/psi/descriptors/x83.rs", "src/psi/mod.rs"]}
{"id": "C70", "title": "Loss of packets", "statement": "When packets of a PID are lost and the 4-bit counters of the packets that arrive show every gap, the table receives exactly the sections of which all packets arrived, once and in order, from any receiver state. Counters show every gap if no section has more than 17 packets and the first packet of every longer section arrives. Sixteen packets lost in a row do not show: the receiver then joins parts of two sections, and there are sections whose join passes the CRC and is read as a table that was never sent.", "quantifier": "every list of sections, packetisation, pattern of loss, receiver state, build mode", "why_tests_cant": "patterns of loss over streams of any length", "anchors": ["src/psi/mod.rs: Psi::mux,Psi::push,Psi::check", "src/psi/pat.rs: parse", "src/psi/pmt.rs: parse", "src/psi/nit.rs: parse", "src/psi/sdt.rs: parse", "src/psi/eit.rs: parse", "src/psi/tot.rs: parse", "src/ts/mod.rs: get_cc"]}
{"id": "C71", "title": "Bit errors on the way", "statement": "When packets are lost (gaps visible in the counters) and sections are hit by bit errors, up to three bits or any within 32 consecutive bits of a section, the table receives exactly the sections that arrive whole and unharmed, once and in order. The pointer field and the length field must arrive: one bit error in the length field can give a PAT that was never sent. The time section has no CRC, so one bit error changes the time that is read. Sync byte, error indicator, priority, PID and scrambling bits make no difference to section reassembly, so packets marked as damaged are used like others.", "quantifier": "every list of sections, packetisation, pattern of loss and error, receiver state, build mode", "why_tests_cant": "error patterns over streams of any length", "anchors": ["src/psi/mod.rs: Psi::mux,Psi::check", "src/psi/utils/crc32.rs", "src/psi/pat.rs: parse", "src/psi/pmt.rs: parse", "src/psi/nit.rs: parse", "src/psi/sdt.rs: parse", "src/psi/eit.rs: parse", "src/psi/tdt.rs: parse", "src/psi/tot.rs: parse"]}
{"id": "C72", "title": "Generator of the character tables", "statement": "The program tools/iso8859-parser.rs prints, for every directory of ISO 8859 mapping files in the form of the Unicode consortium (comments, blank lines, code and character in the first two columns, LF or CR LF, in any order, hidden files ignored), the Rust declarations of the tables of the characters of the codes 0xA0-0xFF in the order of the parts: the last line about a code counts and codes without a line get 0. On files that say what the tables of the library say it prints data.rs from line 11 on, byte for byte. Columns that are two blanks apart abort it.", "quantifier": "every mapping file, every directory of them", "why_tests_cant": "the program is not part of the crate and has no tests", "anchors": ["tools/iso8859-parser.rs: read_file,main", "src/textcode/data.rs"]}
{"id": "C73", "title": "Printing tables for diagnosis", "statement": "Formatting a text, descriptor, PMT, NIT, SDT, EIT or TOT with {:?} aborts exactly if one of its texts has bytes and a code page that is not known; PAT, TDT and Psi can always be formatted. What is formatted shows every field: two values with the same output differ at most in the bytes of texts that show the same characters. For a received descriptor the texts that abort are those that start with the selector 8 or 12 to 15, or with 0x10 and an unknown page, and have text behind it; so a table with right CRC that was read without error can abort its receiver when it is logged. Texts made by from_str can always be formatted.", "quantifier": "every text, descriptor, table and section, every descriptor body from the wire", "why_tests_cant": "texts of every code page inside every structure; no test formats a table", "anchors": ["src/textcode/mod.rs: Debug for StringDVB", "src/psi/descriptors/mod.rs: Debug", "src/psi/eit.rs: derive(Debug)", "src/psi/mod.rs: derive(Debug)", "src/psi/nit.rs: derive(Debug)", "src/psi/pat.rs: derive(Debug)", "src/psi/pmt.rs: derive(Debug)", "src/psi/sdt.rs: derive(Debug)", "src/psi/tdt.rs: derive(Debug)", "src/psi/tot.rs: derive(Debug)"]}
{"id": "C74", "title": "A table made from one section", "statement": "Pat::from(&psi), and the same for the other tables, gives exactly what the section in the Psi says, whatever was received before, and the empty table if there is no complete section of that table with right CRC. Comparing two Psi: a repetition of a section compares equal whatever follows it, and two sections with right CRCs that differ before the CRC in up to three bits or within 32 consecutive bits never compare equal. Other changes can be missed: there are two PAT sections of the same version that compare equal and give different tables.", "quantifier": "every section, build mode and pair of sections", "why_tests_cant": "pairs of sections of any length", "anchors": ["src/psi/pat.rs: impl From<&Psi>", "src/psi/pmt.rs: impl From<&Psi>", "src/psi/nit.rs: impl From<&Psi>", "src/psi/sdt.rs: impl From<&Psi>", "src/psi/eit.rs: impl From<&Psi>", "src/psi/tdt.rs: impl From<&Psi>", "src/psi/tot.rs: impl From<&Psi>", "src/psi/mod.rs: impl PartialEq for Psi"]}
{"id": "C75", "title": "Several tables of a kind on one PID", "statement": "From any mixture of present/following tables and schedules (fewer than 504 events each) that this library sends on one PID, in a byte stream with anything on other PIDs, the receiver gets all events in order, and the header of the last table. It does not keep services apart: the events of two services, the service lists of two transport streams and the streams of two programs that share a PID end up in one table under the identifiers of the last one.", "quantifier": "every list of event tables, byte stream, read sizes, receiver state, build mode", "why_tests_cant": "sequences of tables of any length", "anchors": ["src/psi/eit.rs: parse,demux", "src/psi/sdt.rs: parse", "src/psi/pmt.rs: parse", "src/reader/mod.rs"]}
{"id": "C76", "title": "Measuring the clock of a program", "statement": "On a stream of constant bit rate with exact PCR values at most a second apart, pcr_delta, pcr_to_stc and pcr_jitter_ns together measure no deviation within one turn of the 42-bit clock. Where the clock wraps they do: a build with overflow checks aborts, another one reports a tick too early and then a deviation of as many ticks as the quotient of the two intervals rounded up. With PCR values rounded down to a tick the measured deviation e between intervals of n1 and n2 bytes stays in -(1 + n2/n1) < e < 2 + n2/n1 within one turn.", "quantifier": "every rate, start time, list of intervals, build mode", "why_tests_cant": "the wrap happens once in 26.5 hours; intervals of any sizes", "anchors": ["src/ts/pcr.rs: pcr_delta,pcr_to_stc,pcr_jitter_ns"]}
{"id": "C77", "title": "Joining in the middle of a section", "statement": "A receiver without data that joins a PID in the middle of a section drops packets until one has the counter it expects (1 for a new Psi). If none has, the rest of the section has no effect, and from the next start on every section that arrives whole is read once and in order. If one has, its payload is taken for the start of a section; whatever looks like a section there with right CRC is read, once per packet from its completion to the next start: a private section that carries the bytes of a PAT is read as a PAT that was never sent.", "quantifier": "every rest of a section, receiver counter, following stream with losses, build mode", "why_tests_cant": "joins at every position of every stream", "anchors": ["src/psi/mod.rs: Psi::mux,Psi::push,Psi::default", "src/psi/pat.rs: parse", "src/psi/pmt.rs: parse", "src/psi/nit.rs: parse", "src/psi/sdt.rs: parse", "src/psi/eit.rs: parse", "src/psi/tot.rs: parse"]}
{"id": "C78", "title": "Keeping the latest table and following a program", "statement": "A receiver that makes a new table (From<&Psi>) of every section that passes Psi::check and has the right table id holds, after any sections in any packets, the table of the last such section; packets without payload do not matter, and it may join anywhere and lose packets. Two of these, one for the PAT and one for the PMT on the PID that the PAT gives a program, follow the program: with the packet that completes a PAT with another PID the PMT starts anew, and after that the receiver holds the last PMT of the program, whatever is on other PIDs and though programs share a PID. A receiver that hands every PAT to the same Pat keeps the PID of the first PAT that lists the program, also after a new version moves it.", "quantifier": "every stream of packets, section contents, receiver state, loss pattern, build mode", "why_tests_cant": "streams of any length, changes of the PAT at any point", "anchors": ["src/psi/mod.rs: Psi::mux,Psi::check", "src/psi/pat.rs: impl From<&Psi>,parse", "src/psi/pmt.rs: impl From<&Psi>,parse", "src/psi/nit.rs: impl From<&Psi>,parse", "src/psi/sdt.rs: impl From<&Psi>,parse", "src/psi/eit.rs: impl From<&Psi>,parse", "src/psi/tot.rs: impl From<&Psi>,parse", "src/ts/mod.rs: get_pid"]}
{"id": "C79", "title": "Moving packets to other PIDs and counting them anew", "statement": "Rewriting the PID of packets with set_pid changes nothing else: every other header query, the PCR and the payload stay as they were, and a receiver of any table in any state on the new PID sees exactly what it saw on the old one, also of incomplete or damaged streams, as long as no second PID is moved to the same place and the adaptation field length does not exceed 250 (without overflow checks the payload offset wraps and the header is taken for payload). Adding the same number to all counters, or counting a stream without losses anew with set_cc from any number, changes no reading either; counting a stream with losses anew hides them and can cost the next intact section. A program taken out this way, with a PAT of its own made by the library, is found by a receiver that follows it, with the same PMT.", "quantifier": "every list of packets, routing, receiver state, reading function, build mode", "why_tests_cant": "streams of any length with any content, every routing", "anchors": ["src/ts/mod.rs: get_pid,set_pid,set_cc,is_payload,get_payload_offset", "src/psi/mod.rs: Psi::mux", "src/psi/pat.rs: demux,parse"]}
{"id": "C80", "title": "Giving a program another clock", "statement": "Adding k ticks to the PCR of every packet that has one, with is_pcr, get_pcr and set_pcr, changes bytes 6 to 11 of those packets and nothing else: the value read is the old one plus k modulo 300*2^33 (set_pcr reduces any value by itself), is_pcr stays, and with adaptation field lengths up to 250 the payload and so every section put together from the packets stay. Two shifts are one shift by the sum; a shift by whole turns gives back the very packet exactly if it had no PCR or one with all reserved bits set and an extension below 300. The true distance of two PCR values modulo the period stays, the result of pcr_delta may change by one. The jitter measured on any stream with less than 4 MB between two PCR values stays as long as the new clock does not wrap in it; where it wraps a perfect stream is measured as imperfect or the measurement aborts.", "quantifier": "every list of packets, shift below 2^63, PCR values, build mode", "why_tests_cant": "streams of any length, every shift", "anchors": ["src/ts/pcr.rs: is_pcr,set_pcr,get_pcr,pcr_delta,pcr_to_stc,pcr_jitter_ns", "src/psi/mod.rs: Psi::mux"]}
{"id": "C81", "title": "A program moved to other PIDs with its tables", "statement": "When the packets of the streams of a program are moved to other PIDs with set_pid, its PMT is given the new PIDs and sent with demux, and so is a PAT with this program, a receiver that follows the program in the new stream, whatever is on other PIDs and in any order of packets, has the PMT with the new PIDs, finds on each of them exactly the packets of the old stream, and the same clock on the PID of the PCR. This holds for PMTs of one section (up to 1024 bytes); a larger one is sent as two sections, of which a receiver that keeps the latest has the streams of the second only.", "quantifier": "all sendable PMTs, assignments of PIDs that keep streams apart, packets, orders of packets, numbers of repetitions, both profiles", "why_tests_cant": "The output depends on the PMT, the assignment of PIDs and the order of packets of different PIDs, which no set of recorded streams covers; the condition on the size shows only with about 200 streams.", "anchors": ["src/psi/pmt.rs:109-199", "src/psi/pat.rs:60-124", "src/ts/mod.rs:107-122", "src/ts/pcr.rs:26-60", "src/psi/mod.rs:60-260"]}
{"id": "C82", "title": "The characters printed for tables", "statement": "The characters that {:?} and {:#?} write for a text, descriptor, table or section tell all its fields: two values printed with the same characters differ at most in the bytes of texts that show the same characters, whatever the texts hold (quotes, brackets, commas, line ends). {:?} writes one line: every character is printable ASCII or printable according to Unicode, so nothing received can break a line of a log or send control characters to a terminal. {:#?} writes every field and entry on a line of its own, indented by four spaces per level, with line ends only there.", "quantifier": "every text, descriptor, table and section, both formats, every set of printable characters above ASCII", "why_tests_cant": "texts of any length and content in any nesting of structures; no test formats a table", "anchors": ["src/textcode/mod.rs: Debug for StringDVB", "src/psi/descriptors/mod.rs: Debug", "src/psi/eit.rs: derive(Debug)", "src/psi/mod.rs: derive(Debug)", "src/psi/nit.rs: derive(Debug)", "src/psi/pat.rs: derive(Debug)", "src/psi/pmt.rs: derive(Debug)", "src/psi/sdt.rs: derive(Debug)", "src/psi/tdt.rs: derive(Debug)", "src/psi/tot.rs: derive(Debug)"]}
{"id": "C83", "title": "Packets that are sent twice", "statement": "ISO/IEC 13818-1 allows a sender to send any packet once more with the same counter. For sections in packets of which any are repeated this way, what every table reads is exactly determined: a repeated packet behind the start of a section makes the receiver forget what it has; it reads the section only if that packet was the last one, and the packets behind a repeated one are taken for a section of their own. So if only first and last packets are repeated, every section of several packets is read once and a section in one repeated packet twice; if a packet in the middle is repeated, the section is lost. A caller that leaves out a packet equal to the one before gets every packet once.", "quantifier": "every sequence of sections in packets, every choice of repeated packets, receiver state, build mode", "why_tests_cant": "repeats at any position of streams of any length", "anchors": ["src/psi/mod.rs: Psi::mux,Psi::push", "src/psi/pat.rs: parse", "src/psi/pmt.rs: parse", "src/psi/nit.rs: parse", "src/psi/sdt.rs: parse", "src/psi/eit.rs: parse", "src/psi/tot.rs: parse"]}
{"id": "C84", "title": "Where the bytes of a section come from", "statement": "Whatever packets a new Psi is given - any content, any order, with losses, repeats and damage - a section it holds complete lies in one piece in the payloads (without pointer_field) of packets that came one behind the other, packets without payload aside, with counters in step. What a table holds afterwards is the result of reading such sections only, each with a table id of the table, the least length and, but for the TDT, a CRC of zero; where none came the table stays as it was.", "quantifier": "every list of 188-byte packets, both build modes, every table", "why_tests_cant": "all contents and orders of packets", "anchors": ["src/psi/mod.rs: Psi::mux,Psi::push,Psi::check", "src/psi/pat.rs: check,parse", "src/psi/pmt.rs: check,parse", "src/psi/nit.rs: check,parse", "src/psi/sdt.rs: check,parse", "src/psi/eit.rs: check,parse", "src/psi/tdt.rs: check,parse", "src/psi/tot.rs: check,parse"]}
{"id": "C85", "title": "How tables grow", "statement": "Reading a section adds entries and descriptors behind those the table has, changes and removes none, and what is added fits with its headers into the section between header and CRC (for the TOT: into the buffer and 4095 bytes). So after any n packets from a new Psi a table has grown by at most n times the largest section, whatever the packets hold; a PAT by at most 1021 programs per packet. The growth is not bounded by the bytes of sections received: a packet without payload behind a complete section makes the table read it again, so a stream of one section of 180 bytes and n packets without payload gives a PAT of 42*(n+1) programs.", "quantifier": "every table, Psi, section, list of 188-byte packets, build mode", "why_tests_cant": "all contents of packets and streams of any length", "anchors": ["src/psi/mod.rs: Psi::mux", "src/psi/pat.rs: parse", "src/psi/pmt.rs: parse", "src/psi/nit.rs: parse", "src/psi/sdt.rs: parse", "src/psi/eit.rs: parse", "src/psi/tot.rs: parse", "src/psi/descriptors/mod.rs: Descriptors::parse"]}
{"id": "C86", "title": "Debug and release builds agree", "statement": "Every function of the library whose behaviour can depend on the build profile (overflow checks, debug assertions) - number, date and clock conversions, packet setters, texts, descriptors, sections, reading and sending of all tables, the debug views - gives in a release build exactly what it gives in a debug build unless the debug build panics; so do whole streams followed packet by packet or byte by byte, players of elementary streams, and senders that make tables from texts and send them on many PIDs. What panics in release panics in debug, and a value seen in a debug build is the value of the release build. The converse does not hold: in a packet with adaptation field length 251, where a debug build panics, a release build finds a PAT.", "quantifier": "all arguments of every function, all streams, no assumption on well-formedness", "why_tests_cant": "the tests run in one profile; agreement concerns all inputs in both", "anchors": ["src/psi/descriptors/mod.rs", "src/psi/descriptors/raw.rs", "src/psi/descriptors/x09.rs", "src/psi/descriptors/x0a.rs", "src/psi/descriptors/x0e.rs", "src/psi/descriptors/x40.rs", "src/psi/descriptors/x41.rs", "src/psi/descriptors/x43.rs", "src/psi/descriptors/x44.rs", "src/psi/descriptors/x48.rs", "src/psi/descriptors/x4d.rs", "src/psi/descriptors/x4e.rs", "src/psi/descriptors/x52.rs", "src/psi/descriptors/x58.rs", "src/psi/descriptors/x5a.rs", "src/psi/descriptors/x83.rs", "src/psi/eit.rs", "src/psi/mod.rs", "src/psi/nit.rs", "src/psi/pat.rs", "src/psi/pmt.rs", "src/psi/sdt.rs", "src/psi/tdt.rs", "src/psi/tot.rs", "src/psi/utils/bcd.rs", "src/psi/utils/crc32.rs", "src/psi/utils/mjd.rs", "src/psi/utils/mod.rs", "src/ts/debug.rs", "src/ts/mod.rs", "src/ts/pcr.rs", "src/es/pes.rs", "src/textcode/mod.rs", "src/bits.rs", "src/mux/cbr/mod.rs"]}
{"id": "C87", "title": "What can stop a receiver", "statement": "Whatever packets come in whatever order, a receiver that pushes them into a Psi and hands the Psi to a table goes on without an abort as long as two things hold. First, every packet keeps to its own bytes (adaptation field length at most 250 where overflow is checked, pointer_field inside the packet, or 0, or at least 183); these are exactly the packets that a new Psi takes, and what a new Psi takes every Psi takes. Second, every section that came in one piece, with a table_id of the table, long enough and with the right CRC, can be read: with overflow checks it has a meaning, without them no length in it leads outside. For the PAT the second condition is not needed. The TDT, which has no CRC, must in addition not be divided among packets (without that the claim is false).", "quantifier": "all sequences of 188-byte packets, all seven tables, both build profiles", "why_tests_cant": "the tests push a handful of well-formed streams; the claim is about garbage of any form and in any state", "anchors": ["src/psi/mod.rs", "src/psi/pat.rs", "src/psi/pmt.rs", "src/psi/nit.rs", "src/psi/sdt.rs", "src/psi/eit.rs", "src/psi/tdt.rs", "src/psi/tot.rs"]}
{"id": "C88", "title": "What can stop a sender", "statement": "For every table whose fields hold any value of their types, every PID, counter and buffer, sending (assemble, finalize, cut into packets) ends without an abort when overflow is not checked. When it is checked, it aborts exactly in these cases: the PID has more than 13 bits or the counter more than 4; a satellite or cable delivery descriptor anywhere in the table has a number with too many digits, as far as the library notices (the hundreds as a byte, the tens of thousands as 16 bits); for an EIT schedule also: the last event lies before the day of the first, the last table_id or the running table_id would pass 0xFF, a section number would pass 255, or a time would pass 64 bits. An EIT without events never aborts. No other descriptor can abort, whatever its texts and lists; it appends exactly the stated number of bytes, which for some descriptors is not the number it announces.", "quantifier": "all tables with fields in their types, all PIDs, counters, buffers; both build profiles", "why_tests_cant": "the tests send a few well-formed tables in one build profile; the exact set of values that abort can not be sampled", "anchors": ["src/psi/mod.rs", "src/psi/pat.rs", "src/psi/pmt.rs", "src/psi/nit.rs", "src/psi/sdt.rs", "src/psi/eit.rs", "src/psi/tdt.rs", "src/psi/tot.rs", "src/psi/descriptors/mod.rs", "src/psi/utils/bcd.rs"]}
{"id": "C89", "title": "Whatever a table holds, it is sent as sections", "statement": "For every table whose fields hold any value of their types (also values too wide for their place on the wire), if sending ends then what was appended are exactly the packets of a list of sections. Each section has at least a header and a CRC, the CRC-32 over it is zero, and if it is at most 4098 bytes long then its length field is right, so every receiver takes it as a section. Each starts with the table_id, the identifier, the low five bits of the version with current_next set, its number and the number of the last (modulo 256): for PAT one section of at most 1024 bytes, for PMT, NIT, SDT and EIT present/following consecutive numbers from 0, for a schedule with the service and version of the table. The sections of PMT, NIT and SDT are at most 1024 bytes, those of an EIT at most 4096, if every loop fits and no descriptor writes more than it announces. A TDT is eight bytes. A TOT is one section of 14 bytes and its descriptors. Without these conditions it is false: a TOT with 16 descriptors of 257 bytes is sent with a wrong length, an SDT with long language codes exceeds 1024 bytes.", "quantifier": "all tables with fields in their types, all PIDs of 13 bits, counters of 4 bits, buffers; both build profiles", "why_tests_cant": "the tests assemble a few tables that fit; values out of range and tables that need many sections are not sampled", "anchors": ["src/psi/mod.rs", "src/psi/pat.rs", "src/psi/pmt.rs", "src/psi/nit.rs", "src/psi/sdt.rs", "src/psi/eit.rs", "src/psi/tdt.rs", "src/psi/tot.rs"]}
{"id": "C90", "title": "Values that do not fit their place on the wire", "statement": "For every table whose fields hold any value of their types, sending it gives the same outcome as sending the table with its values cut to their places: PIDs modulo 8192, versions modulo 32, a bit rate modulo 2^22, durations modulo a day, offsets of local time modulo a day, frequencies and positions rounded down to the unit of the wire, and in bytes that hold several fields each field with the excess bits of the fields below it or-ed into it. What is left is in range (apart from decimal numbers with too many digits, dates after the last 16-bit day, and codes that are not three bytes), and values in range are left as they are. So a receiver reads exactly the table with its values cut. That a value which is too large loses its upper bits and nothing else is false: EIT_present_following_flag 2 in an SDT sets EIT_schedule_flag, free_CA_mode 4 changes the running status.", "quantifier": "all tables with fields in their types, all PIDs of 13 bits, counters of 4 bits, buffers, receiver states; both build profiles", "why_tests_cant": "the tests send a few tables with values in range", "anchors": ["src/psi/mod.rs", "src/psi/pat.rs", "src/psi/pmt.rs", "src/psi/nit.rs", "src/psi/sdt.rs", "src/psi/eit.rs", "src/psi/tot.rs", "src/psi/descriptors/mod.rs"]}
{"id": "C91", "title": "Different tables are sent as different packets", "statement": "For two tables whose parts fit their lengths and whose descriptors come back when read, sending them from any PIDs and counters gives the same packets and the same next counter exactly when the PIDs, the counters and the tables (with every value cut to its place on the wire) are the same. This holds for PAT, PMT with its program descriptors (which the library's own receiver does not read back), NIT, SDT, EIT present/following, EIT schedules of fewer than 504 events (with any of the 32 table_ids), TOT and TDT. Without the conditions it is false: a PAT cannot tell what comes after 253 programs, and two empty names of different code tables are sent alike.", "quantifier": "all pairs of tables, PIDs of 13 bits, counters of 4 bits, buffers; both build profiles", "why_tests_cant": "the tests compare the bytes of single tables", "anchors": ["src/psi/mod.rs", "src/psi/pat.rs", "src/psi/pmt.rs", "src/psi/nit.rs", "src/psi/sdt.rs", "src/psi/eit.rs", "src/psi/tot.rs", "src/psi/tdt.rs"]}
{"id": "C92", "title": "How many sections and packets a table takes", "statement": "PMT, NIT and SDT whose items fit are sent as the fewest sections possible: no other way to cut their items, in their order, into sections of at most 1024 bytes takes fewer. Every section takes one packet and one more for each full 184 bytes; the output grows by exactly 188 bytes for each packet and the counter by their number modulo 16. With D bytes of table descriptors and T bytes of items a PMT or NIT takes at most (1000 + 6 D + 7 T) / 920 packets, an SDT at most (1000 + 7 T) / 920. A PAT of n programs takes exactly 1 + (12 + 4 min(n, 253)) / 184 packets (at most 6), present/following 1 + (30 + descriptors) / 184 for each event, a TOT 1 + (14 + descriptors) / 184, a TDT one. That the order of the items does not matter is false: an SDT of four services takes 13 packets in one order and 12 in another.", "quantifier": "all tables in range whose items fit, all PIDs of 13 bits, counters of 4 bits, buffers; all other ways to cut the items; both build profiles", "why_tests_cant": "the tests send tables of one or two sections", "anchors": ["src/psi/mod.rs", "src/psi/pat.rs", "src/psi/pmt.rs", "src/psi/nit.rs", "src/psi/sdt.rs", "src/psi/eit.rs", "src/psi/tot.rs", "src/psi/tdt.rs"]}
{"id": "C93", "title": "Sending and reading only add, whatever is there", "statement": "With no condition on the table, the PID, the counter or the buffer: demux of every table leaves the buffer as it is and puts behind it exactly what it would put into an empty one; the counter it returns, and whether it panics or loops, do not depend on the buffer. The same holds of a single section and of every descriptor and descriptor list. Reading any sequence of sections, valid or not, either leaves every table unchanged or adds to every table what it would add to an empty one (header fields replaced, lists appended), and whether it panics does not depend on the table; a TDT is replaced.", "quantifier": "all tables, values of every size, PIDs, counters and buffers; all sequences of sections with any bytes; both build profiles", "why_tests_cant": "the tests send into empty buffers and read into empty tables", "anchors": ["src/psi/mod.rs", "src/psi/pat.rs", "src/psi/pmt.rs", "src/psi/nit.rs", "src/psi/sdt.rs", "src/psi/eit.rs", "src/psi/tot.rs", "src/psi/tdt.rs", "src/psi/descriptors/mod.rs"]}
{"id": "C94", "title": "A multiplex of all tables", "statement": "A program sends any sequence of tables of all seven kinds on any PIDs with demux, keeps a counter for each PID, and lets all of it go into one buffer. What is added is packets of 188 bytes; on every PID the counters go on without a gap over all tables, whatever is sent on other PIDs in between, and the counter kept for the PID is the next one. Read back through TsReader in pieces of any size, a receiver of one kind on one PID has, from any state, exactly the tables of this kind sent on this PID, in order, added to what it had (TDT: the last; EIT: all events and the header of the last guide), and nothing of other kinds or other PIDs. The same holds if the packets are put in another order in which those of a PID stay in theirs, with packets of other PIDs and stray bytes in between. Without overflow checks, or without schedules, no call aborts.", "quantifier": "all sequences of tables that can be sent without loss (C44-C52, C75), all PIDs and counters, all contents of the buffer, all sizes of reads, all receiver states; both build profiles on both sides", "why_tests_cant": "the tests send one table and look at its bytes", "anchors": ["src/psi/mod.rs", "src/psi/pat.rs", "src/psi/pmt.rs", "src/psi/nit.rs", "src/psi/sdt.rs", "src/psi/eit.rs", "src/psi/tot.rs", "src/psi/tdt.rs", "src/reader/mod.rs"]}
{"id": "C95", "title": "The stream tells what was sent", "statement": "If two sequences of jobs (a PID and a table of any of the seven kinds) give the same packets, they are the same jobs in the same order, and the first counters agree: nothing that is sent, nor where one table ends and the next begins, is lost in the packets. The packets of one PID alone tell all tables on this PID, whatever else is in the two streams. A table begins exactly at the packet whose section is number 0 of a numbered table or is of a table without numbers. This holds while a table takes at most 256 sections; beyond that it is false: 512 present/following events give, byte by byte, the packets of two guides of 256.", "quantifier": "all sequences of tables that can be sent without loss (C44-C52, C75) with PMT, NIT and SDT entries of at most 120000 bytes, all PIDs, counters and buffer contents, both build profiles; schedules where a build with overflow checks does not abort", "why_tests_cant": "a test sends one table and can not compare with all others that might have been sent", "anchors": ["src/psi/mod.rs", "src/psi/pat.rs", "src/psi/pmt.rs", "src/psi/nit.rs", "src/psi/sdt.rs", "src/psi/eit.rs", "src/psi/tot.rs", "src/psi/tdt.rs"]}
{"id": "C96", "title": "Lost packets between tables of all kinds", "statement": "Tables of all kinds are sent one after the other on a PID (also as part of a multiplex of several PIDs) and any packets are lost such that every gap shows in the 4-bit counter. A receiver of PAT, PMT, NIT, SDT, EIT, TDT or TOT then gets, in order, for each table of its kind exactly the entries of the sections of which all packets arrive (with the loop of the table itself if the first section arrives; of the TDTs the last that arrives) and nothing of other sections and other kinds; a table of which all packets arrive is got as it was sent, one of which none arrives leaves no trace. Gaps show whenever the first packet to arrive starts a section and among the 15 packets behind every loss one arrives that starts a section.", "quantifier": "all sequences of tables that can be sent, all patterns of loss with this property, all states of the receiver, PIDs, counters, both build profiles on both sides", "why_tests_cant": "patterns of loss over sequences of tables are too many to test; the tests of the project lose no packet", "anchors": ["src/psi/mod.rs", "src/psi/pat.rs", "src/psi/pmt.rs", "src/psi/nit.rs", "src/psi/sdt.rs", "src/psi/eit.rs", "src/psi/tot.rs"]}
{"id": "C97", "title": "Texts from the sender's user to the viewer", "statement": "Services (type, provider and name), events (number, start, duration, title, subtitle and a long text of up to 3600 bytes spread over extended event descriptors), and the name of a network are given as Unicode texts with a code page, made into tables, sent as packets and received: the receiver's to_string of the texts got from the descriptors, the long text put together from its pieces, gives exactly the texts as given, empty ones included. This holds for texts whose characters are in the code page and that do not start with a control character when the page has no selector; long texts have no control characters in ISO 6937 and no characters above U+FFFF in UTF-8. Each of these conditions is needed: a text in ISO 6937 starting with a line feed, or a long one with a line feed where it is cut, is shown in another code page, and a character above U+FFFF where the text is cut is shown as four U+FFFD.", "quantifier": "all numbers of services and events, all texts with these conditions, all code pages, PIDs, counters, states of the receiver, both build profiles on both sides", "why_tests_cant": "combinations of texts, code pages, cuts, and sections are unbounded; the tests of the project encode no text and cut only a few", "anchors": ["src/textcode/mod.rs", "src/textcode/data.rs", "src/psi/sdt.rs", "src/psi/eit.rs", "src/psi/nit.rs", "src/psi/descriptors/x40.rs", "src/psi/descriptors/x48.rs", "src/psi/descriptors/x4d.rs", "src/psi/descriptors/x4e.rs"]}
{"id": "C98", "title": "Packets found again in a damaged stream", "statement": "In a stream of packets bytes are lost, added or changed in any number of places. However the bytes are delivered, TsReader reads all packets in front of the first damage, and behind each damage all packets from some packet on: noise without 0x47 costs none; otherwise the packets lost are those of which each has a byte 0x47 at or behind the place of the one before, and the next. If at no place behind the first byte w+1 packets in a row have 0x47 these are at most 187 w + 1, so at most one if 0x47 occurs only at the start of packets. Without such a condition a reader may never find the packets, however many come (refuted). A receiver of a table in a damaged multiplex gets of each table exactly what C96 says for the packets that were not found, if what is wrongly taken for packets has other PIDs.", "quantifier": "all streams, all damages, all read sizes, all states of the receiver, both build profiles", "why_tests_cant": "the number of streams, damages and read sizes is unbounded; the tests of the project read two aligned packets", "anchors": ["src/reader/mod.rs", "src/ts/mod.rs", "src/psi/mod.rs"]}
{"id": "C99", "title": "Bit errors and loss among tables of all kinds", "statement": "Tables of all kinds are sent one after the other on a PID or in a multiplex; packets are lost, and packets arrive with bit errors. If the flags and the counter in the header, the pointer field and the length of the section arrive as sent, up to three bits of a section (or any bits within 32) are wrong, and losses show in the counters, a receiver of PAT, PMT, NIT, SDT, EIT or TOT gets of each table exactly the sections that arrive whole and unharmed, in order, and nothing of the others; errors in sync byte, error indicator, priority, scrambling and stuffing do not matter. A TDT has no CRC: one wrong bit gives another time (refuted).", "quantifier": "all tables that can be sent, all losses that show, all errors of this kind, all states of the receiver, both build profiles", "why_tests_cant": "the number of tables, losses and errors is unbounded; the tests of the project read undamaged sections only", "anchors": ["src/psi/mod.rs", "src/psi/pat.rs", "src/psi/pmt.rs", "src/psi/nit.rs", "src/psi/sdt.rs", "src/psi/eit.rs", "src/psi/tot.rs", "src/psi/utils/crc32.rs"]}
{"id": "C100", "title": "What viewers see of a broadcast with loss and bit errors", "statement": "A sender makes tables of the texts of its user (names of services, titles, subtitles and long texts of events, the name of the network, in any code page) and sends them with other tables on several PIDs; packets are lost and arrive with bit errors that show in counters and CRC. A viewer that follows a PID with a TsReader, from any bytes in which the packets are found, and reads the texts sees of each table, in order, exactly the services (events, first name) of the sections that arrive whole and unharmed: never a text, time or number that was not sent, and all of them when nothing is lost. Without overflow checks, or without schedules, sending never aborts.", "quantifier": "all texts that can be written, all tables and orders on all PIDs, all losses and errors that show, all cuts of the stream, both build profiles", "why_tests_cant": "texts, tables, losses and errors are unbounded; the tests of the project have no transmission and decode single texts only", "anchors": ["src/textcode/mod.rs", "src/psi/mod.rs", "src/psi/sdt.rs", "src/psi/eit.rs", "src/psi/nit.rs", "src/psi/descriptors/x48.rs", "src/psi/descriptors/x4d.rs", "src/psi/descriptors/x4e.rs", "src/psi/descriptors/x40.rs"]}
{"id": "C101", "title": "Elementary streams in transport packets", "statement": "PES packets (ISO/IEC 13818-1 Table 2-21: with PTS, DTS and further header fields, or of a stream id without the optional header; with PES_packet_length or, as video, 0) are carried in pieces of any sizes in transport packets with any adaptation fields, among packets of other PIDs and packets without payload. A player made of get_pid, is_payload, get_payload_offset, is_pusi and of is_prefix, is_syntax_spec, get_length, get_payload_offset, is_pts, get_pts, is_dts, get_dts, that joins in the middle, gets the time stamps and the data of every PES packet, from the bytes of the stream read in portions of any sizes. From the first packet alone the time stamps can be had if its payload holds them; it need not, and then the accessors abort. Time stamps less than a turn of the clock apart: pts_delta sums up to the time between the first and the last, a tick short for each wrap. Of any packets of 188 bytes, the player aborts exactly on one of its PID with payload whose adaptation field is longer than the packet (without overflow checks a length of 251 and more wraps around), and of any PES packet of at least 19 bytes only cutting out the data can abort.", "quantifier": "all PES packets, all ways to cut them into pieces, all adaptation fields, all packets between, all portions read, all times, both build profiles", "why_tests_cant": "lists of PES packets, cuts and interleavings are unbounded; the project has no test of src/es and none with a PES packet in transport packets", "anchors": ["src/es/pes.rs", "src/ts/mod.rs", "src/reader/mod.rs"]}
{"id": "C102", "title": "Elementary streams after remultiplexing", "statement": "Packets with any payload whose adaptation fields do not overflow the offset are moved to other PIDs (get_pid, set_pid), counted anew (is_payload, set_cc) or given another clock (is_pcr, get_pcr, set_pcr): a player of the stream gets the same PES packets, time stamps and data from the result as from the original, and aborts when it did. A program moved to other PIDs with a new PAT and PMT made by the library is found in the new stream, among anything on other PIDs, and each stream of its new PMT plays as the one of the old. Not so the relation of the time stamps to the clock: there is no setter of PTS and DTS, and after a change of the clock they are for another time of it.", "quantifier": "all packets, routes, counters, shifts of the clock, all programs whose PMT is one section, all packets between, both build profiles on either side", "why_tests_cant": "lists of packets are unbounded; the project has no test that changes a packet and reads its payload", "anchors": ["src/ts/mod.rs", "src/ts/pcr.rs", "src/es/pes.rs", "src/psi/pmt.rs", "src/psi/pat.rs"]}
{"id": "C103", "title": "Elementary streams with packets lost", "statement": "PES packets are sent in transport packets whose counters go up by one, any of which are lost; the player joins anywhere and looks at the counters (get_cc): unless 16, 32, ... packets are lost in a row between two that arrive, it gives exactly the PES packets all of whose packets arrive and behind which the start of the next one arrives, each with its time stamps and data (PES::new), nothing that was not sent, and all but the last if nothing is lost; also from the bytes, read in portions of any sizes. With 16 packets lost in a row, or without the counters and one packet lost, a PES packet is given that was not sent.", "quantifier": "all contents, stuffings, sets of lost packets, points of joining, packets of other PIDs between, schedules of reads, both build profiles", "why_tests_cant": "losses are arbitrary subsets of unbounded lists; the project has no test with a lost packet of an elementary stream", "anchors": ["src/ts/mod.rs", "src/es/pes.rs", "src/reader/drain.rs", "src/reader/mod.rs"]}
{"id": "C104", "title": "Elementary streams found again in a damaged stream", "statement": "PES packets are sent on a PID among any other packets, and bytes of the stream are lost, added or changed in any number of places. If what TsReader wrongly takes for packets (C98) has other PIDs or no payload, and the packets of the PID that are not found are never 16, 32, ... in a row (so always when no 16 are lost in a row), a player that looks at the counters gives exactly the PES packets all of whose packets are found and behind which the start of the next one is found, with time stamps and data as sent, however the bytes are delivered. Bytes that look like the missing packet become part of a PES packet that was not sent (refuted).", "quantifier": "all contents, stuffings, packets between, damages, schedules of reads, both build profiles", "why_tests_cant": "damages are arbitrary in number, place and content; the project has no test that reads an elementary stream from damaged bytes", "anchors": ["src/reader/drain.rs", "src/reader/mod.rs", "src/ts/mod.rs", "src/es/pes.rs"]}
{"id": "C105", "title": "A program sent and watched", "statement": "A PAT with the program in front and the PMT of the program (one section) are sent by the library, any number of times; between them the streams that the PMT lists, as PES packets in transport packets of which any are lost so that it shows in the counters, and anything on other PIDs. A viewer that finds the PMT through the PAT and plays the streams listed there sees of each, in the order of the PMT and with its stream type, exactly the PES packets that arrive whole and whose end shows, with time stamps and data; also from the bytes, read in portions of any sizes. A PMT in front of the first PAT is not noticed (refuted).", "quantifier": "all programs whose PMT is one section, all streams, losses, interleavings, other packets, schedules of reads, both build profiles on either side", "why_tests_cant": "the interleavings, contents and losses are unbounded; the project has no test that joins PSI and elementary streams", "anchors": ["src/psi/pat.rs", "src/psi/pmt.rs", "src/psi/mod.rs", "src/ts/mod.rs", "src/es/pes.rs", "src/reader/drain.rs", "src/reader/mod.rs"]}
{"id": "C106", "title": "When PES packets are due", "statement": "A program has clock references (PCR) on one PID and PES packets with time stamps (PTS) on another or the same, also in the same packets. A player that keeps the last PCR (is_pcr, get_pcr), takes the PTS from the first packet of each PES packet (is_prefix, is_pts, get_pts) and subtracts (pts_delta of a 300th of the PCR, pts_to_ms) gets for each PES packet the time until its presentation in milliseconds rounded down, less a tick of 90 kHz when the clock wraps between: the true time is more than r ms minus a tick and at most r + 1 ms. A PES packet that is late is taken for one 26.5 hours ahead (refuted).", "quantifier": "all programs, packets, time stamps less than a turn of the clock ahead, places of the wrap, both build profiles", "why_tests_cant": "times and packets are unbounded and the wrap comes once in 26.5 hours; the project has no test that joins PCR and PTS", "anchors": ["src/ts/pcr.rs", "src/ts/mod.rs", "src/es/pes.rs"]}
{"id": "C107", "title": "An elementary stream made with the setters", "statement": "A sender that cuts PES packets of any bytes into transport packets, makes these from NULL_PACKET with set_pid, set_cc, set_pusi_0/1, set_payload_1 and set_pcr, and fills the last one with an adaptation field, puts out exactly the packets of the tables, as few as can be, with counters that go on over the PES packets. The players of C101 and C103 get the same time stamps and data back (the latter all but the last PES packet), also from the bytes read in any portions, and is_pcr/get_pcr give the clock references in the packets they were put into and in no others. A PID or counter out of range aborts with debug assertions; without them a wrong PID can set the error flag of the packet (refuted).", "quantifier": "all PES packets of any length, PIDs, counters, clock references, build profiles, portions of the reader", "why_tests_cant": "PES packets are unbounded; the project tests each setter on one packet and never sends what it reads", "anchors": ["src/ts/mod.rs", "src/ts/pcr.rs", "src/es/pes.rs", "src/reader/mod.rs"]}
{"id": "C108", "title": "A program made, watched and timed", "statement": "The PAT and PMT of a program are sent by the library's demux, its streams are cut into packets with the library's setters (C107), and all are woven in any way with the PAT in front. The viewer of C105 finds the program and gets of each stream, with its type, the time stamps and data of all PES packets but the last, also from the bytes read in any portions. If the PES packets are for times on a clock that never wraps and some carry a clock reference, the player of C106 gets for each the time from the last reference to its presentation, in milliseconds rounded down, less a tick when the clock wraps between.", "quantifier": "all programs with a PMT of one section, streams, PES packets, times, ways of weaving, build profiles, portions of the reader", "why_tests_cant": "the sender and the receiver both use the library and unbounded streams; the project never reads what it sends beyond single tables", "anchors": ["src/ts/mod.rs", "src/ts/pcr.rs", "src/es/pes.rs", "src/psi/mod.rs", "src/psi/pmt.rs", "src/reader/mod.rs"]}
{"id": "C109", "title": "Copies of events, comparison of texts and stream types", "statement": "A copied event (EitItem) or descriptor list is the original, unless a raw descriptor has the tag of a dedicated type: then, and only then, copying panics; such an event can be received (refuted). Two texts compare equal exactly if code page and bytes agree; texts made in one code page from characters of the page compare as the texts themselves, but texts that read alike can differ, and texts with characters outside the page can compare equal (refuted). Stream types compare equal exactly if they are the same.", "quantifier": "all events, descriptor lists, texts, code pages, stream types", "why_tests_cant": "no test copies an event or compares texts of different pages", "anchors": ["src/psi/eit.rs", "src/psi/descriptors/mod.rs", "src/textcode/mod.rs", "src/es/mod.rs"]}
{"id": "C110", "title": "Printing readers and stream types", "statement": "The text written for a Cbr with {:?} or {:#?} is the same exactly if the states agree in all but the memory of the buffers: nothing of the uninitialised memory of a fresh buffer is printed and nothing else is hidden. TsReader and TsDrain print the reader inside, tell which of the two they are, and print nothing of their buffers. Stream types print as their names, which are all different.", "quantifier": "all states of the readers and of Cbr, readers inside, contents of memory, both formats", "why_tests_cant": "fresh buffers hold uninitialised memory (set_len without writing), whose contents a test cannot choose", "anchors": ["src/reader/mod.rs", "src/reader/drain.rs", "src/mux/cbr/mod.rs", "src/es/mod.rs"]}
{"id": "C111", "title": "The memory of fresh buffers does not show", "statement": "TsDrain and Cbr read into buffers whose memory was never written. Whatever that memory and the caller's own buffers hold, and whatever the reader inside does (short reads and errors included), callers of TsReader and of TsDrain get the same answers and bytes: no byte is reported that the reader did not write. Cbr over such a reader gives the same answers, finds the same clock and collects the same packets. Cbr itself reports packets it does not write, so TsDrain over it hands out its own uninitialised memory (refuted).", "quantifier": "all readers inside, schedules with errors, buffer contents and sizes, numbers of reads, build profiles", "why_tests_cant": "a test cannot choose what uninitialised memory holds; it is often zero", "anchors": ["src/reader/mod.rs", "src/reader/drain.rs", "src/mux/cbr/mod.rs"]}
{"id": "C112", "title": "Readers on readers give the same packets", "statement": "TsReader works on anything that reads bytes and TsDrain is such a thing again. Over any Read that gives bytes in pieces of any sizes, TsReader gives the packets of those bytes and then nothing. Readers and drains stacked to any height give the packets the lowest reader finds, whatever the fresh buffers of the drains hold: a second reader neither loses nor invents a packet. An error of the source goes up through the stack as it is. A Read that reports more bytes than it was asked for makes TsReader panic, not hand out a packet; over one that never ends and never gives a sync byte it does not return.", "quantifier": "all Reads inside, all heights of the stack, byte streams, schedules of pieces, buffer contents, numbers of reads", "why_tests_cant": "a test stacks a fixed number of readers over a fixed file", "anchors": ["src/reader/mod.rs", "src/reader/drain.rs"]}
{"id": "C113", "title": "Tables passed on from relay to relay", "statement": "A relay receives a table and sends what it received. A table of this library within the limits, or one received from a foreign sender under the conditions of C69, comes out of any number of relays as it went into the first: nothing is lost, added or changed from relay to relay, whatever builds, PIDs, counters, sizes of pieces, stacks of readers, memory and Psi states the relays have. Schedules of fewer than 504 events keep their events and header, but not the number of the table within its sixteen: a schedule of more than three days comes back with the number of its last table, and the next relay sends the first event in that table (refuted).", "quantifier": "all tables of seven kinds, all numbers of relays, profiles, PIDs, counters, schedules, stacks of readers, buffer contents and Psi states", "why_tests_cant": "tests send and receive once, within one process", "anchors": ["src/psi/mod.rs", "src/psi/pat.rs", "src/psi/pmt.rs", "src/psi/nit.rs", "src/psi/sdt.rs", "src/psi/eit.rs", "src/psi/tot.rs", "src/psi/tdt.rs", "src/reader/mod.rs", "src/reader/drain.rs"]}
{"id": "C114", "title": "Remultiplexers one after another", "statement": "Programs that move packets to other PIDs with set_pid and count them anew with set_cc may be run one after another. Any number of them is like one with the routes put together; routes that lead back restore every packet in all bytes. Of several that count the packets of a PID the last decides. Counting from the number in front of the first packet keeps an unbroken stream of packets with payload as it is; packets without payload get the counter of the packet in front (refuted for them). Moving, counting and giving another clock with set_pcr can be done in any order.", "quantifier": "all numbers of stages, routes, counters, packets, build profiles", "why_tests_cant": "tests set one field of one packet", "anchors": ["src/ts/mod.rs: get_pid,set_pid,set_cc,is_payload", "src/ts/pcr.rs: is_pcr,get_pcr,set_pcr"]}
