{
 "C03": {
  "note": "The setters are exact for values in range. C03_set_pid_release_refuted: in builds without debug assertions set_pid with a value of 2^13 or more writes into the flag bits."
 },
 "C04": {
  "note": "Exact in both build modes. C04_doc_contract_refuted: the documented result 0 for invalid packets never happens."
 },
 "C07": {
  "note": "Exact; C07_true_elapsed_refuted shows the missing tick at the wrap."
 },
 "C12": {
  "note": "Exact; C12_true_elapsed_refuted shows the missing tick at the wrap."
 },
 "C28": {
  "note": "C28_round_trip under `exact`, C28_exact_needed shows that the condition is necessary for typed descriptors, C28_round_trip_refuted is a violating descriptor with all fields in range."
 },
 "C29": {
  "note": "Exact; C29_size_refuted: extended event descriptors with items."
 },
 "C45": {
  "note": "C45_program_descriptors_refuted and C45_read_one_byte_early: parse reads program-level descriptors at offset 11 instead of 12."
 },
 "C50": {
  "note": "C50_lossless below 504 events, C50_schedule describes every length exactly, C50_long_refuted is a sorted schedule that loses events."
 },
 "C51": {
  "note": "The segmentation rule of EN 300 468 is refuted (C51_placed_refuted, C51_gap_refuted, C51_unsorted_refuted, C51_segment_last_refuted); C51_sections and C51_dense state exactly which sections are emitted."
 },
 "C53": {
  "note": "C53_oversize_refuted: a service whose descriptors exceed 1024 bytes gives an oversize section behind an empty one."
 },
 "C55": {
  "note": "For each table the exact condition on which parse aborts, in both build modes; the refuted theorems exhibit CRC-valid sections that abort."
 },
 "C60": {
  "note": "The text is exact; C60_complete_refuted: transport_priority is not shown; C60_pcr_refuted: a PCR is shown where is_pcr says there is none."
 },
 "C61": {
  "note": "Exact in both directions with overflow checks; C61_no_payload_refuted and C61_split_tdt_refuted are packet sequences outside the condition that are legal but read twice or abort."
 },
 "C62": {
  "note": "The driver `follow` (reader, PID filter, mux, parse) is not code of the library. Schedules of EIT: C75_followed."
 },
 "C63": {
  "note": "C63_repeated_refuted and C63_version_refuted show the consequences."
 },
 "C83": {
  "note": "Exact for every choice of repeated packets; C83_lost_refuted: a PAT in three packets, the second sent twice, is lost."
 },
 "C85": {
  "note": "C85_bytes_refuted: growth is bounded by the number of packets, not by the bytes of sections received."
 },
 "C86": {
  "note": "Holds for every modelled function with a mode argument; C86_same_refuted: the converse fails."
 },
 "C87": {
  "note": "C87_tdt_cut_refuted: a TDT divided between two packets stops the receiver although both packets and the section are fine."
 },
 "C88": {
  "note": "stops_if states both directions and both build profiles; schedule_over follows the sections of a schedule event by event."
 },
 "C89": {
  "note": "series and starts are stated on bytes; the limits carry the conditions under which they hold, with refutations without them."
 },
 "C90": {
  "note": "the equality of what is sent needs nothing but typed fields; the in-range and received parts name what is not folded (digits, loop_sized)."
 },
 "C91": {
  "note": "two tables of the same kind are compared; a schedule may stop a debug build, so its equality is between sends that return."
 },
 "C92": {
  "note": "schedules are cut by segments (C51), not as short as possible."
 },
 "C93": {
  "note": "unconditional, unlike C35 and C63: also where a value does not fit and where the code panics."
 },
 "C94": {
  "note": "the driver is not code of the repository; it only calls demux."
 },
 "C95": {
  "note": "the driver M_multi is not code of the repository. C95_refuted shows that the bound of 256 sections is needed."
 },
 "C96": {
  "note": "That some condition on the gaps is needed is shown by C70. The driver M_multi is not code of the repository."
 },
 "C97": {
  "note": "The driver M_words (a user of the library who makes descriptors from texts and a viewer who shows them) is not code of the repository. A schedule is what eit_demux has written if it succeeds (as in C50)."
 },
 "C98": {
  "note": "TsReader checks one sync byte only; C98_never_refuted shows a stream of any length of which it delivers no packet after one byte is lost."
 },
 "C99": {
  "note": "C99_time_refuted: a section of the time with a wrong bit is taken as it is."
 }
}