# Formal model of libmpegts in Rocq

Properties: `properties.jsonl` (C01..). Claims and theorem names: `MANIFEST.json`.
Mutation log: `seeded/LOG.jsonl`. Proof development: `rocq/theories`.

## Modelling conventions

* `Inductive mode := Debug | Release`: the two build profiles of rustc. In
  `Debug` integer overflow and a false `debug_assert!` abort, in `Release`
  arithmetic wraps and `debug_assert!` is absent. Every function whose Rust body
  can observe the difference takes a `mode`; theorems quantify over it.
* `Inductive res A := Ok (a : A) | Panic | Hang`. `Panic` is any Rust panic
  (index out of bounds, overflow in `Debug`, division by zero, failed assertion,
  failed unwrap). `Hang` is "fuel exhausted"; it is excluded by the theorems, or
  (StringDVB::split) proved for every fuel to express non-termination.
* Fixed width integers are `N` (i64: `Z`); every operation that can overflow is an
  explicit operation with its modulus. Bytes are `N < 256` (`bytes l`).
* Slices and vectors are `list N`; indices and lengths are `nat`. An index that is
  out of bounds is `Panic`.
* `&mut` functions return the new value.
* Loops are recursion on fuel or on structure.

## Specifications

`Layout.v` is an independent bit-level description language: `layout
[(width, value); ...]` packs fields most significant bit first, the notation of
the syntax tables in ISO/IEC 13818-1 and EN 300 468; `field l off w` extracts a
field. Codec theorems are stated against these tables and not against the shifts
and masks of the code. CRC is specified bit-serially and as polynomial division,
BCD by decimal digits, calendar by day/second arithmetic, readers by list
functions on the whole stream, sections by the concatenation of payloads.

## What is modelled

Everything in `src/` that `lib.rs` compiles. Each definition cites file and lines.

| source | model | notes |
|---|---|---|
| `bytes.rs` | `M_bytes` | the `debug_assert!` on lengths and the slice panic behind it are one `Panic` |
| `bits.rs` | `M_consts` (`set_bits`) | the macro is compiled (`#[macro_use]`), used by EIT and the descriptors 0x43, 0x4E, 0x5A, 0x83, whose models write the expanded form |
| `constants.rs` | `M_consts` | every constant |
| `ts/mod.rs`, `ts/pcr.rs` | `M_ts` | all functions; u64/i64 arithmetic with overflow |
| `ts/debug.rs` | `M_debug` | with the part of `std::fmt` it uses (`debug_struct`, plain and `{:#?}`); other formatter flags are not modelled |
| `es/pes.rs`, `es/mod.rs` | `M_pes`, `M_tables` | `StreamType` and `get_stream_type` are in `M_tables` (C46) |
| `psi/mod.rs` | `M_psi` | Psi and PsiDemux |
| `psi/utils/*` | `M_crc`, `M_utils` | |
| `psi/descriptors/*` | `M_desc`, `M_access` | a boxed `dyn Desc` is an inductive with one constructor per type; `Any` downcasts compare constructors |
| `psi/{pat,pmt,nit,sdt,eit,tdt,tot}.rs` | `M_tables` | |
| `textcode/*` | `M_text`, `M_textdata` | tables transcribed by `tools/gen_textdata.py`; `String` is a list of Unicode scalar values; `as_bytes`, `from_utf8_lossy` and `char` conversions are modelled in `M_text` |
| `reader/*` | `M_reader` | the inner reader is a script of reads (any sizes, errors); the uninitialised buffer of TsDrain is an arbitrary list of 188 bytes |
| `tools/iso8859-parser.rs` | `M_iso` | the generator of `textcode/data.rs`; file names and contents are an argument, the printed text the result |
| `From<&Psi>` of the tables | `M_from` | |
| `Debug` of texts, descriptors, tables, `Psi` | `M_show` | the tree the formatter is asked to write |
| the same, as characters | `M_layout` | the builders of `std::fmt` (`DebugStruct`, `DebugList`, `DebugTuple`, `PadAdapter`), `Debug` of integers and `str`; the Unicode tables for characters from 127 on are a parameter, over which all theorems are quantified; other formatter flags are not modelled |
| `Debug` of the readers, `Cbr`, `StreamType` | `M_showr` | the `Debug` of the reader inside is a parameter |
| `TsReader` over any `Read` (reader/mod.rs:69-95), readers on drains on readers | `M_tower` | the Read inside is a parameter; `skip + x` is not cut to usize |
| relays: send, read, receive, send again | `M_chain` | driver, not code of /repo |
| remultiplexers one after another | `M_cascade` | driver, not code of /repo |
| derived `Clone` of `EitItem`, `PartialEq` of `StringDVB`, `StreamType` | `M_clone` | |
| callers | `M_drive`, `M_recv`, `M_system`, `M_measure`, `M_tune`, `M_remux`, `M_restamp`, `M_move`, `M_multi`, `M_words`, `M_shows`, `M_play`, `M_count`, `M_watch`, `M_due`, `M_carry` | not code of /repo: loops that push packets into one Psi and hand it to a table, as the unit tests do, a loop that also reads the packets from a stream, the measurement of PCR values, receivers that keep the latest table and follow a program, a sender of all tables on several PIDs, a user who makes tables from texts and a viewer who shows them, a broadcaster who sends them with other tables, players of elementary streams without and with a look at the counters, a viewer of a program, a player that compares time stamps with the clock, a sender of an elementary stream, and a remultiplexer that rewrites PIDs, counters and PCR values |
| `src/mux/cbr/mod.rs` | `M_cbr` | not compiled (`lib.rs` does not declare `mux`), unfinished; modelled as it stands |

Not modelled: `Debug` of `Lang` (no value of it can be had outside its file), derived `Clone` of
plain structs (the `Clone` of `Descriptor` and `EitItem`, which can panic, is modelled; so are the derived comparisons, `M_clone`), memory allocation failure, and `unsafe` beyond the buffer above.

`Conformance.v` with `T_data.v` (bytes extracted from the tests by `tools/gen_testdata.py`) replays
the unit tests of /repo on the model by computation: each test's assertions are an `Example`. It is
evidence that the model behaves as the code does, not part of any theorem.

## Plan per property

| property | model | proof |
|---|---|---|
| C01 | `bytes.rs` on lists | big-endian value by arithmetic; frame by list lemmas |
| C02, C03, C04 | `ts/mod.rs` | header = `layout` of 8 fields; bit sweeps lifted to all values |
| C05..C09 | `ts/pcr.rs` with u64/i64 overflow | `layout` of PCR; arithmetic with `lia`/`nia` |
| C10..C12 | `es/pes.rs` | `layout` of PTS/DTS |
| C13..C15 | `crc32.rs` | table sweep, bit-serial CRC, linearity, invertibility of the shift register |
| C16..C18 | `bcd.rs`, `mjd.rs` | decimal digits; div/mod arithmetic |
| C19..C25 | `textcode` | table sweeps lifted through list induction; split by well-founded induction |
| C26 | `lang.rs` | finite table + generality over all strings |
| C27..C33 | `psi/descriptors` | one file per family; `layout` per descriptor; induction over loops |
| C34..C36 | `psi/mod.rs` finalize, check, demux, mux | induction on section length in packets |
| C37..C42 | `psi/mod.rs` mux | invariant, simulation against list spec |
| C43 | Psi equality | direct, collision witness |
| C44..C53 | tables | generic section packing lemma, instantiated; end-to-end through demux, mux, parse |
| C54, C55 | tables | direct / invariant; witnesses for aborts |
| C56..C59 | reader | schedule-indexed model, induction on stream |
| C60 | `ts/debug.rs` | text as function of the fields; injectivity of decimal texts |
| C61 | Psi and tables, any sections | classification of sections: dropped, read, aborting; simulation over packetisations |
| C62 | reader + Psi + table | C56..C58 composed with C61 and C44..C52 |
| C63 | tables sent repeatedly | C62 folded over lists of tables |
| C64 | `constants.rs`, `bits.rs` | code tables of EN 300 468 written separately (`S_consts`) |
| C65 | descriptor access | classification of records by length |
| C66 | parse then assemble | condition `faithful` sufficient and necessary; one witness per type |
| C67 | sections in chains of packets | chain of packets as an inductive; reads counted along it |
| C68 | `mux/cbr/mod.rs` | invariant over the reads of any inner reader |
| C69 | foreign sections to table to sections | C61 gives the table, a per-section condition on the bytes makes it sendable, C44-C52 send it |
| C70 | packets lost on the way | induction over sections with a receiver state that says how far behind the last fitting packet is; the refutation is a concrete pair of PAT sections differing by multiples of the CRC generator |
| C71 | bit errors and loss | packets hit in place still carry a section of the same length, CRC results of C15 make it unheard, then C70 |
| C72 | generator of the character tables | relational grammar of mapping files and of array literals; data.rs recomputed from the tables (`T_iso.v` by `tools/gen_isotext.py`) |
| C73 | printing texts, descriptors and tables with `{:?}` | view as a tree; texts in a table, injectivity up to characters shown; wire bytes of texts through `reads` |
| C74 | a table made from one section (`From<&Psi>`), comparison of sections | reading theorems with the empty table; CRC linearity on differences before the CRC |
| C75 | event guides on one PID; tables of several services on one PID | C50 and C62 folded over lists of tables |
| C76 | measuring the clock across the wrap; rounded PCR values | induction over the PCR values of a steady or paced stream |
| C77 | joining in the middle of a section | what the receiver has collected as `holds`, one packet at a time, then C70 |
| C78 | keeping the latest table, following a program | receivers of C61/C70/C77 with another reading function; PAT and PMT separated by watching that the PID stays the same |
| C79 | moving packets to other PIDs, counting anew | what mux reads of a packet is its flags, counter and payload; a map on counters that keeps the test for gaps commutes with mux; the receiver of C78 on the result |
| C80 | another clock for a program | is_pcr means the payload starts behind byte 11; the bits of a field determine it, so the PCR bytes are the table of their fields; jitter depends on differences only |
| C81 | a program moved to other PIDs with its tables | one section from the splitting of C53; receiver of C78; packets of C79; clock of C80 |
| C82 | the characters of `{:?}` and `{:#?}` | layout by depth (S_layout), equal to what the builders write; prefix-free tokens, so the text determines the tree; with C73 the fields |
| C83 | packets sent twice | packets cut behind every repeated one (S_double); each piece as in C77, the first as in C70 |
| C84 | where the bytes of a section come from | invariant of mux: buffer = complete section in one piece, then the end of what came in step (S_origin) |
| C85 | how tables grow | per table: what parse adds fits in the section (S_grow), then induction over packets with size <= 4098 |
| C86 | the two build profiles | relation "panics with checks or the same" (S_profile) carried through every definition with a mode argument |
| C87 | aborts of whole streams | C40 (packets), C84 (origin of sections) and C55 (readable sections) joined: S_stops, P_stops |
| C88 | aborts of senders | exact condition for every table: S_sender, P_sender, P_sender2, P_sender3, P_sender4 |
| C89 | shape of what senders send, for any field values | S_framed, P_framed: headers, numbers, CRC, lengths, limits |
| C90 | values too wide for their field | S_wide, P_wide, P_wide2: a table is sent as its normal form, the normal form is in range and is what a receiver reads |
| C91 | different tables, different packets | S_distinct, P_distinct: packets -> sections -> tables, each step injective |
| C92 | cost of a table | S_few, P_few: the split is greedy, so it is the shortest; packets by length |
| C93 | independence of what is there | P_frame: frame lemmas for every write into the output and every loop of a parser |
| C94 | whole multiplex | M_multi (driver: one counter for each PID, one buffer), S_multi, P_multi: C93, C61 and C44-C52 together |
| C95 | told by the stream | S_tell, P_tell: packets cut into sections, sections into tables (first section begins the table), tables by C91 |
| C96 | loss between tables | S_lossy, P_lossy: sections of each table, loss per section (C70, P_loss), what is kept of each table |
| C97 | texts end to end | M_words (driver: tables from texts, views of tables), S_words, P_words (an empty text has no code page on the wire), P_words2 (labels and pieces), P_words3 (items): C19, C24 and C47–C50 put together |
| C98 | damaged streams | S_damage (pieces of a stream, places of 0x47), P_damage: reader from any place in a packet, induction over the packets, then over the damages; tables by C96 |
| C99 | errors and loss among tables | S_hits (packets sent and what comes of them), P_hits, P_hits2: runs of packets matched with sections, errors by C71, loss by C96 |
| C100 | what viewers see of a damaged broadcast | S_shows (parts of what is sent), M_shows (a broadcaster), P_shows: C97 for the texts, C99 for errors and loss, C62 for the reader |
| C101 | elementary streams | S_play (Table 2-21, pieces, packets between), M_play (a player), P_play: C02/C04 for the header, C10/C11 for the PES header, C57 for the reader |
| C102 | elementary streams after remultiplexing | S_remux, S_restamp, M_play; P_replay: packets the player cannot tell apart; C79, C80, C81, C101 |
| C103 | elementary streams with packets lost | S_play, S_count; P_count: the packets gathered are those of one PES packet; C57, C101 |
| C104 | elementary streams found again in a damaged stream | S_damage, S_count, S_found; P_found: marks on packets are marks on pieces; C98, C103 |
| C105 | a program sent and watched | S_tables, S_count, S_watch; P_watch; C78, C81, C103 |
| C106 | when PES packets are due | S_restamp, S_play, S_due; P_due; C05, C12, C101 |
| C107 | an elementary stream made with the setters | S_play, S_carry; P_carry; C03, C05, C57, C101, C103 |
| C108 | a program made, watched and timed | S_play, S_carry, S_due, S_air; P_air; C105, C106, C107 |
| C109 | derived Clone and PartialEq | M_clone; Props_clone; C19, C33 |
| C110 | Debug of readers and stream types | M_showr; Props_showr; C82 |
| C111 | uninitialised memory | S_memory; P_memory (two runs side by side); C58, C59, C68 |
| C112 | readers on readers | M_tower (the reader over any Read); S_reader.in_stream; P_tower (induction on the height); C56-C59 |
| C113 | relay after relay | M_chain (driver); P_chain (induction on the relays); C44-C52, C69, C112 |
| C114 | stages of remultiplexing | M_cascade (driver); S_cascade; P_cascade; C79 |

Properties that the code violates are stated exactly as far as they hold and the
violation is proved as `..._refuted` with a computed witness.

File naming: `M_` model, `S_` specification, `P_` proofs, `W_` combinations, `Props_` the theorems
named after the properties. No proofs in model files, no model functions in specifications except
where a claim is about them. `tools/gen_manifest.py` collects the theorem names.

## Disagreements found between the code and its purpose

All are theorems (`_refuted`, or the exact characterisation beside it).

* Transport: PCR debug view for adaptation fields that are too short; `transport_priority` missing.
* Sections: a packet without payload behind a complete section makes the table read it again;
  tables accumulate items over repetitions and versions and mix services, transport streams and programs that share a PID; section numbers are cut to u8.
* A PMT of more than 1024 bytes is sent as several sections, which ISO/IEC 13818-1 does not allow (a program has
  one section); a receiver that keeps the latest PMT loses the streams of the others (C81).
* TOT parse takes the descriptor loop from the buffer without comparing it with the end of the section:
  the CRC, or bytes of the next section in the same packet, come back as descriptors (C55).
* PMT, NIT, TOT parse abort on a valid CRC with an oversize descriptor length; TDT check does not
  look at the bytes received; PMT reads its descriptors one byte early.
* PAT drops programs beyond 253 per section; oversize items give oversize sections.
* EIT: durations of 24 h and more wrap; schedules put the first event one segment late, advance one
  segment per event, spill over more than 8 sections, leave the range of table ids, and name wrong
  `segment_last_section_number` and `last_table_id`; unsorted events abort.
* Descriptors: several bodies abort on parse; the size of an extended event with items is wrong;
  local time offsets of 5 h and more abort; downcasting by tag aborts on records of a wrong length;
  language codes that start with 0x10 break the framing when forwarded.
* Printing (`{:?}`) a received table aborts if one of its texts has an unknown code page selector.
* Text: see C19..C25 (splitting that does not end, text without code page selector that grows).
* Sections packed back to back: more than one section per packet on average loses sections; a short
  section complete in its first packet is read twice and the one behind it is lost.
* A receiver that uses one `Pat` for all PATs never follows a program to another PID.
* A packet sent twice in the middle of a section, which ISO/IEC 13818-1 allows, loses the section (C83).
* A new `Psi` takes a packet that continues a section for the start of one if its counter is 1.
* `Cbr` (not compiled) reports packets it does not deliver and aborts when its block is full.
* Clock: measuring a perfect stream aborts (or reports jitter) where the PCR wraps; a delta across the
  wrap is one tick short.
* `FEC_OUTER_RS` has the value of "no outer coding".
* TsReader checks one sync byte only: after one lost byte it may deliver wrong packets for ever (C98).
* Texts: a text in ISO 6937 that starts with a control character is read in the code page of that number, also when
  a long text is cut in front of one; a character of four bytes in UTF-8 is cut in two (C97).
* A schedule of more than three days is received with the number of its last table; sending it again puts the first event into that
  table (`psi_init` does not mask `table_id`, C113).
* TsReader loses the bytes of a packet in which a read fails; TsDrain loses a packet on an empty read.

## Trusted base

* The kernel of Coq 8.16.1, including `vm_compute` (used for table sweeps and examples; `coqchk`
  re-checks them without the virtual machine).
* No axioms: `Print Assumptions` reports "Closed under the global context" for every theorem in
  the property files. `coqchk` also lists the parameters `Coq.ssr.ssrunder.Under_rel.*` of the standard
  library, which is loaded; no theorem depends on them.
* The reading of the Rust source by which the model was written, and of the standard library
  functions named above.
* The specifications: `S_*.v` were written from ISO/IEC 13818-1 and EN 300 468; the code pages of
  `S_textdata.v` come from the codecs of the Python standard library.

`seeded/LOG.jsonl` records wrong programs: edits of the model as a realistic bug would be, with the
theorems that stop proving.
