{
 "claims": [
  {
   "property": "C01",
   "status": "proved",
   "theorems": [
    "C01_flv_framing",
    "C01_mux_succeeds",
    "C01_reader_deterministic",
    "C01_any_success"
   ],
   "note": ""
  },
  {
   "property": "C02",
   "status": "partial",
   "theorems": [
    "C02_size_limit_refuted",
    "C02_size_limit_partial"
   ],
   "note": "False: every payload of 2^24 bytes or more is muxed successfully with a truncated DataSize. Proved for shorter payloads."
  },
  {
   "property": "C03",
   "status": "proved",
   "theorems": [
    "C03_header_block",
    "C03_header_flags",
    "C03_failed_save"
   ],
   "note": ""
  },
  {
   "property": "C04",
   "status": "proved",
   "theorems": [
    "C04_demux_exact"
   ],
   "note": ""
  },
  {
   "property": "C05",
   "status": "partial",
   "theorems": [
    "C05_composition_time_refuted",
    "C05_composition_time_partial"
   ],
   "note": "False for every negative composition time (returned unsigned). Proved for the non-negative ones. C197 says exactly what a Tag returns after any history."
  },
  {
   "property": "C06",
   "status": "partial",
   "theorems": [
    "C06_parse_depends_on_tag_refuted",
    "C06_parse_depends_on_tag_partial"
   ],
   "note": "False for the composition time on a reused Tag. Everything else is independent of the Tag. C197 says exactly what a Tag returns after any history."
  },
  {
   "property": "C07",
   "status": "proved",
   "theorems": [
    "C07_mux_writer_failure",
    "C07_rejected_writes_nothing"
   ],
   "note": ""
  },
  {
   "property": "C08",
   "status": "proved",
   "theorems": [
    "C08_replays_last_gops",
    "C08_new_cache"
   ],
   "note": ""
  },
  {
   "property": "C09",
   "status": "partial",
   "theorems": [
    "C09_bounded_refuted",
    "C09_bounded_partial"
   ],
   "note": "The bound on the number of GOPs holds. The bound of 1024 packets is off by one: a GOP of 1025 packets is always possible, and is the maximum."
  },
  {
   "property": "C10",
   "status": "proved",
   "theorems": [
    "C10_replay_starts_with_key"
   ],
   "note": ""
  },
  {
   "property": "C11",
   "status": "proved",
   "theorems": [
    "C11_rejected_write_no_effect",
    "C11_replay_of_accepted",
    "C11_rejection_condition"
   ],
   "note": ""
  },
  {
   "property": "C12",
   "status": "proved",
   "theorems": [
    "C12_send_stops_at_failure",
    "C12_send_succeeds"
   ],
   "note": ""
  },
  {
   "property": "C13",
   "status": "proved",
   "theorems": [
    "C13_write_panics_iff",
    "C13_no_panic_after_demux"
   ],
   "note": ""
  },
  {
   "property": "C14",
   "status": "proved",
   "theorems": [
    "C14_types_to_slice"
   ],
   "note": ""
  },
  {
   "property": "C15",
   "status": "proved",
   "theorems": [
    "C15_adts_header"
   ],
   "note": ""
  },
  {
   "property": "C16",
   "status": "partial",
   "theorems": [
    "C16_true_header_refuted",
    "C16_header_fields_partial"
   ],
   "note": "false in general: frames over 8184 bytes, object types outside 1..4 and channel configurations above 7 are written behind a wrong header without an error; proved: exactly which fields every successful call writes. C207 says what a decoder finds in the stream within the limits."
  },
  {
   "property": "C17",
   "status": "proved",
   "theorems": [
    "C17_raw_before_config",
    "C17_history_writes_nothing"
   ],
   "note": ""
  },
  {
   "property": "C18",
   "status": "partial",
   "theorems": [
    "C18_rejected_config_refuted",
    "C18_rejected_config_partial"
   ],
   "note": "false for the escape index 15: the rejected configuration is kept; proved for every other rejection"
  },
  {
   "property": "C19",
   "status": "proved",
   "theorems": [
    "C19_aac_sample_rate",
    "C19_reserved_index",
    "C19_rate_after"
   ],
   "note": ""
  },
  {
   "property": "C20",
   "status": "partial",
   "theorems": [
    "C20_mp3_rate_refuted",
    "C20_mp3_rate_partial",
    "C20_rate_after"
   ],
   "note": "the code reads bits 1..2 instead of 2..3: on success the rate is right iff the field is 44100 Hz and the frame is not padded"
  },
  {
   "property": "C21",
   "status": "proved",
   "theorems": [
    "C21_avcc_to_annexb",
    "C21_conversion_unique",
    "C21_cached_parameter_sets"
   ],
   "note": ""
  },
  {
   "property": "C22",
   "status": "proved",
   "theorems": [
    "C22_h264_total",
    "C22_accepted_media"
   ],
   "note": ""
  },
  {
   "property": "C23",
   "status": "partial",
   "theorems": [
    "C23_length_prefixed_refuted",
    "C23_length_prefixed_partial"
   ],
   "note": "false exactly when the first unit is one byte long"
  },
  {
   "property": "C24",
   "status": "partial",
   "theorems": [
    "C24_new_header_refuted",
    "C24_first_header_partial"
   ],
   "note": "false: headers accumulate; proved for streams with one sequence header; C173 says exactly what is written after several"
  },
  {
   "property": "C25",
   "status": "partial",
   "theorems": [
    "C25_cached_sets_refuted",
    "C25_cached_sets_partial",
    "C25_header_accepted"
   ],
   "note": "false: everything after the first PPS is cached with it; proved for records without trailing bytes"
  },
  {
   "property": "C26",
   "status": "partial",
   "theorems": [
    "C26_all_or_nothing_refuted",
    "C26_nothing_written_partial"
   ],
   "note": "false: the delimiter and the units before the bad one have been written; proved for sequence headers and short packets; C173 says exactly what is written"
  },
  {
   "property": "C27",
   "status": "proved",
   "theorems": [
    "C27_codec_dispatch"
   ],
   "note": ""
  },
  {
   "property": "C28",
   "status": "partial",
   "theorems": [
    "C28_sample_rate_refuted",
    "C28_sample_rate_partial"
   ],
   "note": "false once AAC has been seen; proved exactly which rate is reported after every history"
  },
  {
   "property": "C29",
   "status": "proved",
   "theorems": [
    "C29_crc_is_mpeg2"
   ],
   "note": "Table-driven GenerateCrc32 equals the bit-serial CRC-32/MPEG-2 of Spec/Crc32.v on every byte string."
  },
  {
   "property": "C30",
   "status": "proved",
   "theorems": [
    "C30_residue",
    "C30_range",
    "C30_burst_detected",
    "C30_corrupted_section_rejected"
   ],
   "note": "Zero residue on every string; every corruption confined to 32 consecutive bits changes the CRC."
  },
  {
   "property": "C31",
   "status": "proved",
   "theorems": [
    "C31_pat"
   ],
   "note": ""
  },
  {
   "property": "C32",
   "status": "proved",
   "theorems": [
    "C32_pmt",
    "C32_pmt_overflow"
   ],
   "note": "also proved: with more than 33 entries PMT panics"
  },
  {
   "property": "C33",
   "status": "partial",
   "theorems": [
    "C33_pcr_pid_refuted",
    "C33_pcr_pid_partial"
   ],
   "note": "false when the last media type is audio: PCR_PID 0x101 is announced and no packet on it ever carries a PCR; proved when the list is empty or ends with video"
  },
  {
   "property": "C34",
   "status": "proved",
   "theorems": [
    "C34_sdt",
    "C34_sdt_overflow"
   ],
   "note": "also proved: above 163 bytes SDT panics"
  },
  {
   "property": "C35",
   "status": "partial",
   "theorems": [
    "C35_metadata_refuted",
    "C35_metadata_partial"
   ],
   "note": "false exactly when provider and service names exceed 158 bytes together; otherwise the whole output is characterised"
  },
  {
   "property": "C36",
   "status": "partial",
   "theorems": [
    "C36_sdt_counter_refuted"
   ],
   "note": "false: the counter is always 0"
  },
  {
   "property": "C37",
   "status": "proved",
   "theorems": [
    "C37_packetisation"
   ],
   "note": ""
  },
  {
   "property": "C38",
   "status": "partial",
   "theorems": [
    "C38_mux_panics_refuted",
    "C38_mux_total_partial"
   ],
   "note": "false for key frames whose PES packet has 176..183 bytes; proved for every other frame and any writer"
  },
  {
   "property": "C39",
   "status": "partial",
   "theorems": [
    "C39_short_key_frame_refuted"
   ],
   "note": "false for every key frame whose PES packet has at most 175 bytes: stuffing is written into the payload and no PES packet can be read"
  },
  {
   "property": "C40",
   "status": "proved",
   "theorems": [
    "C40_continuity"
   ],
   "note": ""
  },
  {
   "property": "C41",
   "status": "proved",
   "theorems": [
    "C41_pcr"
   ],
   "note": ""
  },
  {
   "property": "C42",
   "status": "proved",
   "theorems": [
    "C42_timestamps"
   ],
   "note": ""
  },
  {
   "property": "C43",
   "status": "partial",
   "theorems": [
    "C43_wraparound_refuted",
    "C43_wraparound_partial"
   ],
   "note": "false for every timestamp from 2^33 on (one tick too high); the encoded value is given for every non-negative timestamp"
  },
  {
   "property": "C44",
   "status": "partial",
   "theorems": [
    "C44_prefixes_refuted",
    "C44_prefixes_partial"
   ],
   "note": "false whenever both timestamps are present; proved for PTS only"
  },
  {
   "property": "C45",
   "status": "proved",
   "theorems": [
    "C45_pes_length"
   ],
   "note": ""
  },
  {
   "property": "C46",
   "status": "proved",
   "theorems": [
    "C46_sync_gap",
    "C46_sync_gap_any_rate",
    "C46_mixer_gap"
   ],
   "note": "rates up to 92160000 Hz for histories of any length; any positive rate for fewer than 2^32 calls; and through Mixer.Update for every history"
  },
  {
   "property": "C47",
   "status": "partial",
   "theorems": [
    "C47_monotone_refuted",
    "C47_monotone_never_refuted",
    "C47_monotone_partial"
   ],
   "note": "false (44.1 kHz, 0, 14 and 14 ms; C47_monotone_never_refuted: after any history and at any rate up to 102400 Hz there are such times); proved that outputs fall by at most 900 ticks at a steady rate, only by resynchronising to the input, and by at most 1800 at any rates. C161 gives the times of all frames exactly."
  },
  {
   "property": "C48",
   "status": "partial",
   "theorems": [
    "C48_update_refuted",
    "C48_update_partial"
   ],
   "note": "false for every time from 47721859 ms on; proved below"
  },
  {
   "property": "C49",
   "status": "partial",
   "theorems": [
    "C49_mixer_continuity_refuted",
    "C49_mixer_continuity_partial",
    "C49_counters",
    "C36_sdt_counter_refuted"
   ],
   "note": "false after SaveAACHeader between frames and for the SDT; proved for histories of Mux, SaveMetadata, SetTsHeader and Update on the other PIDs; C49_counters says exactly which counters every history (without SetWriter, on a working writer) has: gaps of one packet per saved sequence header and no others. C206 says what a receiver makes of such gaps."
  },
  {
   "property": "C50",
   "status": "proved",
   "theorems": [
    "C50_descriptors"
   ],
   "note": ""
  },
  {
   "property": "C51",
   "status": "partial",
   "theorems": [
    "C51_country_refuted"
   ],
   "note": "false for every country"
  },
  {
   "property": "C52",
   "status": "proved",
   "theorems": [
    "C52_amf0_round_trip"
   ],
   "note": "Values without time.Time; the corner of a zero-length read at the very end of a bytes.Reader is C57."
  },
  {
   "property": "C53",
   "status": "partial",
   "theorems": [
    "C53_encode_count_partial",
    "C53_encode_count_refuted"
   ],
   "note": "Refuted: keys and type names longer than 65535 bytes make the count too small. Proved for every value whose keys fit in 65535 bytes, on any writer. C181 says exactly what is written and returned for every value."
  },
  {
   "property": "C54",
   "status": "proved",
   "theorems": [
    "C54_decode_terminates",
    "C54_decode_batch_terminates"
   ],
   "note": "Fuel is one more than the number of remaining bytes; the theorems say it never runs out."
  },
  {
   "property": "C55",
   "status": "partial",
   "theorems": [
    "C55_decode_never_panics_refuted",
    "C55_decode_never_panics_partial"
   ],
   "note": "Refuted by 07 00 00 on a fresh decoder. Proved for input without the byte 7; C135 says exactly which inputs panic."
  },
  {
   "property": "C56",
   "status": "partial",
   "theorems": [
    "C56_dates_round_trip_refuted",
    "C56_adobe_dates_decode_partial"
   ],
   "note": "Refuted for every time: Encode writes a number marker inside the date, Decode does not skip it. Dates laid out per the AMF0 specification decode correctly."
  },
  {
   "property": "C57",
   "status": "partial",
   "theorems": [
    "C57_empty_string_readers_refuted",
    "C57_empty_string_readers_partial"
   ],
   "note": "Refuted at the end of a bytes.Reader; proved elsewhere."
  },
  {
   "property": "C58",
   "status": "partial",
   "theorems": [
    "C58_batch_reports_truncation_refuted",
    "C58_batch_success_consumes_all_partial"
   ],
   "note": "Refuted: io.EOF inside a value is swallowed. Proved: a batch without error has consumed the whole input. C170 says exactly which cuts are reported."
  },
  {
   "property": "C59",
   "status": "proved",
   "theorems": [
    "C59_decode_batch_inverts_encode_batch"
   ],
   "note": ""
  },
  {
   "property": "C60",
   "status": "partial",
   "theorems": [
    "C60_references_refuted",
    "C60_references_to_objects_partial"
   ],
   "note": "Refuted for strict arrays (and typed objects): the cached value is the empty one. Proved for objects and ECMA arrays over any decoder history."
  },
  {
   "property": "C61",
   "status": "partial",
   "theorems": [
    "C61_decoded_values_finite_refuted",
    "C61_decoded_values_finite_partial",
    "C61_plain_layouts_finite_partial"
   ],
   "note": "Refuted: a self-reference decodes to a cyclic map. Proved finite for input without the reference marker byte and without the AMF3 switch byte, and for every consumed layout without references and AMF3 values. C165 says exactly which decoded values are finite. C205 and C208 say which decoded values can be encoded again."
  },
  {
   "property": "C62",
   "status": "partial",
   "theorems": [
    "C62_chunking_independent_refuted",
    "C62_chunking_independent_partial"
   ],
   "note": "Refuted: a string split between two reads is an error. Proved: a success from a chunked reader is the result of the contiguous reader (no AMF3 switch byte in the input). C162 says which cuts a document survives, C166 covers AMF3 values. C184 covers AMF3 documents."
  },
  {
   "property": "C63",
   "status": "partial",
   "theorems": [
    "C63_awkward_keys_refuted",
    "C63_empty_key_refuted",
    "C63_never_comes_back_refuted",
    "C63_ecma_refuted",
    "C63_decoded_keys",
    "C63_awkward_keys_partial"
   ],
   "note": "Refuted, and for every object with such a key: an empty key anywhere in an object makes what Encode wrote unreadable for every decoder; with an empty key or one longer than 65535 bytes Encode succeeds and no decoder ever gives an object with that key; the same for EncodeEcmaArray, and whatever the bytes a decoded object has keys of 1..65535 bytes only. Proved for keys of 1..65535 bytes, so these are exactly the keys that survive."
  },
  {
   "property": "C64",
   "status": "proved",
   "theorems": [
    "C64_u29_written_and_read_back",
    "C64_u29_too_large_rejected",
    "C64_u29_read_range"
   ],
   "note": ""
  },
  {
   "property": "C65",
   "status": "proved",
   "theorems": [
    "C65_amf3_round_trip"
   ],
   "note": "Integers above the U29 range travel as doubles, as in the code; negative integers are C66."
  },
  {
   "property": "C66",
   "status": "partial",
   "theorems": [
    "C66_negative_integers_refuted",
    "C66_negative_integers_decode_refuted",
    "C66_nonnegative_integers_partial"
   ],
   "note": "Refuted for every negative integer of the U29 range; proved for 0..2^28-1."
  },
  {
   "property": "C67",
   "status": "partial",
   "theorems": [
    "C67_object_references_refuted",
    "C67_value_references_partial"
   ],
   "note": "Refuted for every object and array: the reference table holds the empty value. Proved for dates and byte arrays over any later history."
  },
  {
   "property": "C68",
   "status": "proved",
   "theorems": [
    "C68_string_references",
    "C68_string_references_stable"
   ],
   "note": ""
  },
  {
   "property": "C69",
   "status": "partial",
   "theorems": [
    "C69_dynamic_objects_refuted",
    "C69_sealed_objects_partial"
   ],
   "note": "Refuted: the dynamic bit is never recognised. Proved for sealed objects."
  },
  {
   "property": "C70",
   "status": "partial",
   "theorems": [
    "C70_truncation_rejected_refuted",
    "C70_truncation_rejected_partial"
   ],
   "note": "Refuted: truncated byte arrays and XML are zero-filled. Proved for strings, and for byte arrays and XML cut right after the length. C172 says for whole documents what each cut gives."
  },
  {
   "property": "C71",
   "status": "proved",
   "theorems": [
    "C71_dates_round_trip"
   ],
   "note": ""
  },
  {
   "property": "C72",
   "status": "proved",
   "theorems": [
    "C72_decode_terminates",
    "C72_decode_batch_terminates"
   ],
   "note": ""
  },
  {
   "property": "C73",
   "status": "proved",
   "theorems": [
    "C73_integers_survive"
   ],
   "note": ""
  },
  {
   "property": "C74",
   "status": "proved",
   "theorems": [
    "C74_del_undoes_add",
    "C74_add_meta_header_general",
    "C74_add_keeps_header"
   ],
   "note": ""
  },
  {
   "property": "C75",
   "status": "partial",
   "theorems": [
    "C75_del_returns_rest_refuted",
    "C75_del_returns_rest_partial",
    "C75_del_never_panics_partial",
    "C75_others_unchanged",
    "C75_del_general"
   ],
   "note": "Refuted for the long-string, XML and AMF3 encodings (the AMF3 one panics). Proved for the AMF0 short string with any continuation and decoder state. C180 says exactly what is returned for every input."
  },
  {
   "property": "C76",
   "status": "partial",
   "theorems": [
    "C76_encode_reports_writer_failures_partial",
    "C76_encode_reports_writer_failures_refuted"
   ],
   "note": "Proved for Encode of every value; refuted for EncodeWithAMF3 and EncodeXmlDocument. C198 says exactly what all encoders do."
  },
  {
   "property": "C77",
   "status": "proved",
   "theorems": [
    "C77_substring_total"
   ],
   "note": ""
  },
  {
   "property": "C78",
   "status": "proved",
   "theorems": [
    "C78_cseq_round_trip",
    "C78_cseq_text",
    "C78_cseq_left"
   ],
   "note": ""
  },
  {
   "property": "C79",
   "status": "proved",
   "theorems": [
    "C79_request_round_trip"
   ],
   "note": ""
  },
  {
   "property": "C80",
   "status": "proved",
   "theorems": [
    "C80_via_round_trip"
   ],
   "note": ""
  },
  {
   "property": "C81",
   "status": "proved",
   "theorems": [
    "C81_user_round_trip",
    "C81_bare_uri",
    "C81_blanks"
   ],
   "note": ""
  },
  {
   "property": "C82",
   "status": "partial",
   "theorems": [
    "C82_display_name_refuted",
    "C82_named_address_partial"
   ],
   "note": "false: no input yields a display name; proved that the rest of an address with a quoted name is read correctly"
  },
  {
   "property": "C83",
   "status": "proved",
   "theorems": [
    "C83_parsers_terminate"
   ],
   "note": ""
  },
  {
   "property": "C84",
   "status": "partial",
   "theorems": [
    "C84_params_never_panic_refuted",
    "C84_empty_value_panics",
    "C84_params_partial"
   ],
   "note": "false; the theorem says exactly when it panics; proved safe for ASCII without quotes in which every equals sign has a value. C192 covers all texts exactly."
  },
  {
   "property": "C85",
   "status": "partial",
   "theorems": [
    "C85_header_lines_never_panic_refuted",
    "C85_after_a_header_partial"
   ],
   "note": "false; panics exactly when a continuation line precedes all header lines"
  },
  {
   "property": "C86",
   "status": "proved",
   "theorems": [
    "C86_set_get"
   ],
   "note": ""
  },
  {
   "property": "C87",
   "status": "partial",
   "theorems": [
    "C87_compact_names_refuted",
    "C87_compact_line_refuted",
    "C87_empty_entry_partial",
    "C87_empty_entry_other",
    "C87_received",
    "C87_compact_length_refuted",
    "C87_compact_from_refuted"
   ],
   "note": "False for each of the 19 names; the table is consulted only if the long name is stored without values, which no parsed message does (C87_received, exact). A message with l: in place of Content-Length: is never accepted; with f: only, the sender is the empty address."
  },
  {
   "property": "C88",
   "status": "partial",
   "theorems": [
    "C88_headers_partial",
    "C88_two_values_refuted",
    "C88_no_value_refuted"
   ],
   "note": "false for every header with two values or none; proved for one plain value per name. C196 says exactly which messages with several values or none come back."
  },
  {
   "property": "C89",
   "status": "partial",
   "theorems": [
    "C89_methods",
    "C89_versions",
    "C89_names",
    "C89_others",
    "C89_methods_exact",
    "C89_methods_reject",
    "C89_versions_exact",
    "C89_ascii_partial",
    "C89_others_rejected_refuted"
   ],
   "note": "rejection of every other string is false: U+0131 and U+017F fold to I and S; the exact set of accepted strings is proved, and the full claim for ASCII strings"
  },
  {
   "property": "C90",
   "status": "proved",
   "theorems": [
    "C90_first_line",
    "C90_version",
    "C90_reason_phrase"
   ],
   "note": ""
  },
  {
   "property": "C91",
   "status": "partial",
   "theorems": [
    "C91_payload_round_trip_refuted",
    "C91_payload_partial",
    "C91_truncation_refuted"
   ],
   "note": "false for every payload that does not begin with CRLF; proved: comes back as CRLF and a prefix missing at most two bytes. C186 says exactly which payload is parsed, C190 what becomes of a message after several hops."
  },
  {
   "property": "C92",
   "status": "partial",
   "theorems": [
    "C92_empty_line_refuted",
    "C92_with_payload_partial"
   ],
   "note": "false for every message without payload; proved with one. C201 says exactly what happens to messages without payload on a connection."
  },
  {
   "property": "C93",
   "status": "partial",
   "theorems": [
    "C93_stays_within_refuted",
    "C93_message_per_block_partial"
   ],
   "note": "false for every payload of more than two bytes; proved when the message ends with its block. C186 says exactly which payload is parsed."
  },
  {
   "property": "C94",
   "status": "partial",
   "theorems": [
    "C94_reported",
    "C94_written_partial",
    "C94_other_case_refuted"
   ],
   "note": "false if the map holds the name in another case; proved otherwise"
  },
  {
   "property": "C95",
   "status": "proved",
   "theorems": [
    "C95_amf0_wire_format"
   ],
   "note": ""
  },
  {
   "property": "C96",
   "status": "proved",
   "theorems": [
    "C96_amf3_wire_format",
    "C96_amf3_encoding_canonical"
   ],
   "note": ""
  },
  {
   "property": "C97",
   "status": "proved",
   "theorems": [
    "C97_amf3_encode_count_and_failures"
   ],
   "note": ""
  },
  {
   "property": "C98",
   "status": "proved",
   "theorems": [
    "C98_amf3_decode_batch_inverts_encode_batch"
   ],
   "note": ""
  },
  {
   "property": "C99",
   "status": "proved",
   "theorems": [
    "C99_header_writer_failure"
   ],
   "note": ""
  },
  {
   "property": "C100",
   "status": "proved",
   "theorems": [
    "C100_h264_writer_failure"
   ],
   "note": ""
  },
  {
   "property": "C101",
   "status": "proved",
   "theorems": [
    "C101_adts_writer_failure"
   ],
   "note": ""
  },
  {
   "property": "C102",
   "status": "partial",
   "theorems": [
    "C102_mp3_dropped_refuted"
   ],
   "note": "false: the PES packet is always empty"
  },
  {
   "property": "C103",
   "status": "proved",
   "theorems": [
    "C103_aac_end_to_end",
    "C103_h264_end_to_end"
   ],
   "note": ""
  },
  {
   "property": "C104",
   "status": "proved",
   "theorems": [
    "C104_mux_writer_failure"
   ],
   "note": ""
  },
  {
   "property": "C105",
   "status": "proved",
   "theorems": [
    "C105_update_then_mux",
    "C105_mixer_times_in_range"
   ],
   "note": ""
  },
  {
   "property": "C106",
   "status": "partial",
   "theorems": [
    "C106_parse_never_panics_refuted",
    "C106_empty_parameter_panics"
   ],
   "note": "false; the theorem says exactly when it panics for input made of lines, an empty line and a body"
  },
  {
   "property": "C107",
   "status": "proved",
   "theorems": [
    "C107_digest_round_trip",
    "C107_get_authorization"
   ],
   "note": ""
  },
  {
   "property": "C108",
   "status": "proved",
   "theorems": [
    "C108_copy_from"
   ],
   "note": ""
  },
  {
   "property": "C109",
   "status": "proved",
   "theorems": [
    "C109_user_request_user",
    "C109_to_request_text",
    "C109_to_user_reads"
   ],
   "note": ""
  },
  {
   "property": "C110",
   "status": "proved",
   "theorems": [
    "C110_bytes_idempotent",
    "C110_bytes_changes"
   ],
   "note": ""
  },
  {
   "property": "C111",
   "status": "proved",
   "theorems": [
    "C111_header_fields"
   ],
   "note": ""
  },
  {
   "property": "C112",
   "status": "partial",
   "theorems": [
    "C112_segmentation_partial",
    "C112_segmentation_refuted"
   ],
   "note": "false for the payload of every message with at least three bytes of it; proved for success or failure and everything else. C186 says exactly which payload is parsed."
  },
  {
   "property": "C113",
   "status": "proved",
   "theorems": [
    "C113_typed_users",
    "C113_typed_others",
    "C113_named_setters",
    "C113_getters"
   ],
   "note": ""
  },
  {
   "property": "C114",
   "status": "proved",
   "theorems": [
    "C114_parse_terminates"
   ],
   "note": ""
  },
  {
   "property": "C115",
   "status": "proved",
   "theorems": [
    "C115_contents_payload"
   ],
   "note": ""
  },
  {
   "property": "C116",
   "status": "proved",
   "theorems": [
    "C116_message_round_trip"
   ],
   "note": "the payload is C91"
  },
  {
   "property": "C117",
   "status": "proved",
   "theorems": [
    "C117_make_request",
    "C117_make_response"
   ],
   "note": ""
  },
  {
   "property": "C118",
   "status": "proved",
   "theorems": [
    "C118_single_use",
    "C118_sends_its_media"
   ],
   "note": "Over a model of memory, all call histories and buffer growth policies; refinement to private copies."
  },
  {
   "property": "C119",
   "status": "partial",
   "theorems": [
    "C119_media_overwritten_refuted",
    "C119_media_kept_partial"
   ],
   "note": "False as stated: every later Mux of a no longer frame by the same mixer overwrites it. Proved until that mixer muxes again. C218 says what it shows after any later calls."
  },
  {
   "property": "C120",
   "status": "partial",
   "theorems": [
    "C120_audio_again_refuted",
    "C120_header_again_refuted",
    "C120_video_again_partial"
   ],
   "note": "False for AAC frames and for sequence headers, in every history; proved for H.264 frames muxed again at once."
  },
  {
   "property": "C121",
   "status": "partial",
   "theorems": [
    "C121_handlers_called_refuted",
    "C121_externalizable_refuted"
   ],
   "note": "False as stated: the externalizable bit is tested against the wrong value, so in every history every handler and built-in reader is unreachable and the body is left in the input."
  },
  {
   "property": "C122",
   "status": "proved",
   "theorems": [
    "C122_mixer_tables"
   ],
   "note": ""
  },
  {
   "property": "C123",
   "status": "partial",
   "theorems": [
    "C123_documents_refuted",
    "C123_documents_read",
    "C123_documents_partial"
   ],
   "note": "False for booleans 2..255; proved for every other layout of the grammar in Spec/AmfDoc.v. References are C60 and C62, embedded AMF3 is C62."
  },
  {
   "property": "C124",
   "status": "proved",
   "theorems": [
    "C124_only_documents"
   ],
   "note": "Embedded AMF3 values are not looked into here."
  },
  {
   "property": "C125",
   "status": "proved",
   "theorems": [
    "C125_encode",
    "C125_ecma",
    "C125_others"
   ],
   "note": "Times, which Encode writes wrongly, are C56; a failing first write of EncodeXmlDocument is C76."
  },
  {
   "property": "C126",
   "status": "partial",
   "theorems": [
    "C126_documents_partial",
    "C143_references_refuted",
    "C69_dynamic_objects_refuted",
    "C121_externalizable_refuted",
    "C66_negative_integers_decode_refuted"
   ],
   "note": "Missing: object references (false, C67), dynamic objects (false, C69), externalizable objects (false, C121), integers from 2^28 on (C66). C142 says exactly what Decode accepts and returns, these included."
  },
  {
   "property": "C127",
   "status": "proved",
   "theorems": [
    "C127_only_documents"
   ],
   "note": ""
  },
  {
   "property": "C128",
   "status": "partial",
   "theorems": [
    "C128_encoder_refuted",
    "C128_encoder_partial",
    "C128_avmplus"
   ],
   "note": "False for integers from 2^28 to 2^29-2; proved for everything else Encode can represent."
  },
  {
   "property": "C129",
   "status": "partial",
   "theorems": [
    "C129_fan_out_refuted",
    "C129_fan_out_partial"
   ],
   "note": "False when @setDataFrame stands twice in front of the metadata; proved for media and for metadata that starts with a name or with @setDataFrame and a name. C209 says exactly what every mixer gets."
  },
  {
   "property": "C130",
   "status": "proved",
   "theorems": [
    "C130_remux_h264",
    "C130_remux_aac"
   ],
   "note": ""
  },
  {
   "property": "C131",
   "status": "proved",
   "theorems": [
    "C131_remux_panics_iff"
   ],
   "note": ""
  },
  {
   "property": "C132",
   "status": "proved",
   "theorems": [
    "C132_stream_read_back"
   ],
   "note": ""
  },
  {
   "property": "C133",
   "status": "proved",
   "theorems": [
    "C133_broken_source_reported"
   ],
   "note": "Between two values the reported error is the source's own and all values before it are returned: C59 and C98."
  },
  {
   "property": "C134",
   "status": "partial",
   "theorems": [
    "C134_bytes_with_eof_refuted",
    "C134_batch_drops_last_refuted",
    "C134_amf3_refuted",
    "C134_bytes_with_eof_partial"
   ],
   "note": "False for every AMF0 value whose encoding does not end in a number or length, and for AMF3 strings and byte arrays; DecodeBatch then drops the last value without an error. Proved: otherwise the result is the same."
  },
  {
   "property": "C135",
   "status": "proved",
   "theorems": [
    "C135_panics_only_there",
    "C135_panics_there",
    "C135_panics_exactly"
   ],
   "note": "Only-if for every input; if for beginnings without AMF3 values; both together for input without the byte 17."
  },
  {
   "property": "C136",
   "status": "proved",
   "theorems": [
    "C136_references_accepted",
    "C136_accepted_exactly"
   ],
   "note": "Input without AMF3 values (without the byte 17 in the iff)."
  },
  {
   "property": "C137",
   "status": "partial",
   "theorems": [
    "C137_reference_values_refuted",
    "C137_typed_shift_refuted",
    "C137_reference_values_read",
    "C137_reference_values_partial"
   ],
   "note": "False for strict arrays (always read as empty) and after typed objects (which take two places). Proved: the exact value the library gives for every document whose references denote no enclosing map, over any history; the specification's value for documents of objects and ECMA arrays."
  },
  {
   "property": "C138",
   "status": "proved",
   "theorems": [
    "C138_shared_messages_isolated",
    "C138_as_if_their_own",
    "C138_changes_seen"
   ],
   "note": "Sequential calls; concurrent use of one map is a data race in Go and not modelled."
  },
  {
   "property": "C139",
   "status": "partial",
   "theorems": [
    "C139_later_headers_refuted",
    "C139_later_headers_partial"
   ],
   "note": "False for a map that was empty at the call: it is not kept, and all headers set on it later are lost. Proved for every other map."
  },
  {
   "property": "C140",
   "status": "proved",
   "theorems": [
    "C140_failure_not_taken_for_end",
    "C140_as_before",
    "C140_cut_message_refused"
   ],
   "note": "A cut in the last two bytes of a payload goes unnoticed because Parse does not read them (C91)."
  },
  {
   "property": "C141",
   "status": "partial",
   "theorems": [
    "C141_eof_with_data_refuted",
    "C141_eof_with_data_partial",
    "C141_message"
   ],
   "note": "False for an unterminated last line as long as the buffer: refused in one case, parsed in the other. Proved: whatever parses when io.EOF comes alone parses the same when it comes with the last bytes; C212 has the exact condition."
  },
  {
   "property": "C142",
   "status": "proved",
   "theorems": [
    "C142_decode_exactly",
    "C142_rejects",
    "C142_batch"
   ],
   "note": "Readers that satisfy every read in full while bytes remain, as in C126. The grammar is in Spec/Amf3Ref.v."
  },
  {
   "property": "C143",
   "status": "partial",
   "theorems": [
    "C143_references_refuted",
    "C143_references_partial",
    "C67_object_references_refuted"
   ],
   "note": "False after an empty XML text or byte array, which takes no place in the table, and for references to arrays and objects (C67). Proved for documents without these."
  },
  {
   "property": "C144",
   "status": "proved",
   "theorems": [
    "C144_history",
    "C144_defined",
    "C144_del_absent"
   ],
   "note": ""
  },
  {
   "property": "C145",
   "status": "partial",
   "theorems": [
    "C145_lines",
    "C145_round_trip_refuted",
    "C145_round_trip_partial"
   ],
   "note": "False, with a panic, for every map with an argument without value (the line ends at its equals sign); proved for all others."
  },
  {
   "property": "C146",
   "status": "proved",
   "theorems": [
    "C146_refines"
   ],
   "note": "Pointers other than nil; the writer calls no method of the cache that is being sent (C150)."
  },
  {
   "property": "C147",
   "status": "partial",
   "theorems": [
    "C147_flv_subscribers_partial",
    "C147_flv_subscribers_refuted"
   ],
   "note": "False for metadata with @setDataFrame twice in front; proved when metadata has at most one, whoever was served before. C211 is exact."
  },
  {
   "property": "C148",
   "status": "partial",
   "theorems": [
    "C148_ts_subscribers_refuted",
    "C148_copying_subscribers_partial"
   ],
   "note": "False: the second subscriber's key frame is the inter frame's bytes followed by the rest of its own. Proved for subscribers that copy the packet struct first."
  },
  {
   "property": "C149",
   "status": "partial",
   "theorems": [
    "C149_snapshot_refuted",
    "C149_snapshot_partial"
   ],
   "note": "False for a packet assigned after it was written; proved for programs that do not assign packets."
  },
  {
   "property": "C150",
   "status": "proved",
   "theorems": [
    "C150_refines",
    "C150_quiet"
   ],
   "note": "Writes during a call of the writer see the packets as they are when it returns. No nil pointers."
  },
  {
   "property": "C151",
   "status": "partial",
   "theorems": [
    "C151_live_refuted",
    "C151_live_partial"
   ],
   "note": "False: a full cache, whose oldest group has two packets or more, panics when a key frame is written during the first. Proved when no key frame is written meanwhile."
  },
  {
   "property": "C152",
   "status": "proved",
   "theorems": [
    "C152_first_line_exactly",
    "C152_lower_case_status"
   ],
   "note": "An equivalence between ParseFirstLine and a relation in Spec/SipLine.v."
  },
  {
   "property": "C153",
   "status": "partial",
   "theorems": [
    "C153_response_stays_refuted",
    "C153_old_headers_refuted",
    "C153_fresh_headers_partial"
   ],
   "note": "False as stated; proved for an object whose IsResponse is false and whose headers were replaced by SetHeader with an empty map. What happens otherwise is C185, exactly."
  },
  {
   "property": "C154",
   "status": "proved",
   "theorems": [
    "C154_request_exactly",
    "C154_request_panics",
    "C154_address_exactly",
    "C154_address_panics",
    "C154_via_exactly",
    "C154_via_panics",
    "C154_no_errors"
   ],
   "note": "Equivalences with the relations of Spec/SipAddr.v; parameters are those of C155."
  },
  {
   "property": "C155",
   "status": "proved",
   "theorems": [
    "C155_every_text",
    "C155_parameters_exactly",
    "C155_get"
   ],
   "note": "ASCII texts; trimming and separators beyond ASCII are outside the statement."
  },
  {
   "property": "C156",
   "status": "proved",
   "theorems": [
    "C156_object",
    "C156_accepted",
    "C156_panics",
    "C156_refused",
    "C156_total",
    "C156_fields_unique"
   ],
   "note": "Equivalences with the relations of Spec/SipWhole.v. How much of the rest the payload takes beyond Content-Length depends on the blocks (C91); the statement bounds it."
  },
  {
   "property": "C157",
   "status": "partial",
   "theorems": [
    "C157_others",
    "C157_header",
    "C157_fresh",
    "C157_reuse_partial",
    "C157_reuse_stale_refuted",
    "C157_reuse_too_long_refuted"
   ],
   "note": "False as stated: the flag and the length byte accumulate. C157_header gives the header after every history exactly; the claim is proved while no call has written both times, which covers the one call per object that Mux makes."
  },
  {
   "property": "C158",
   "status": "proved",
   "theorems": [
    "C158_stuff",
    "C158_stuff_unique",
    "C158_pcr"
   ],
   "note": ""
  },
  {
   "property": "C159",
   "status": "partial",
   "theorems": [
    "C159_log",
    "C159_reads",
    "C159_arrays",
    "C159_amf0",
    "C159_amf3_leaf",
    "C159_partial",
    "C159_amf0_refuted",
    "C159_amf3_refuted"
   ],
   "note": "False as stated: five bytes of AMF0 ask for up to 4 GiB before failing, and six bytes of AMF3 give a value of up to 256 MiB. Proved: the log of buffers misses none that bytes are read into; successful AMF0 calls (any reader) and AMF3 values other than arrays and objects ask for exactly what they read, and successful calls of either decoder on input in one piece that is not used up ask for at most 17 times what they read. Buffers made from sizes in the input are counted, not maps nor slices grown by append. C214 bounds every call, whatever its result and reader."
  },
  {
   "property": "C160",
   "status": "proved",
   "theorems": [
    "C160_amf0",
    "C160_amf3"
   ],
   "note": "The conversion itself is reflect's; it is modelled on bit patterns."
  },
  {
   "property": "C161",
   "status": "proved",
   "theorems": [
    "C161_clock",
    "C161_stamps",
    "C161_before_update"
   ],
   "note": "C161_stamps asks of a key frame at least 170 bytes of media, as C132 does."
  },
  {
   "property": "C162",
   "status": "proved",
   "theorems": [
    "C162_pieces",
    "C162_cuts"
   ],
   "note": "An empty string at the very end of the input needs a reader that answers an empty Read without io.EOF, as in C123."
  },
  {
   "property": "C163",
   "status": "proved",
   "theorems": [
    "C163_accepted_exactly",
    "C163_panics_exactly",
    "C163_errors_exactly"
   ],
   "note": "Removes the restriction of C135 and C136 to inputs without AMF3 values."
  },
  {
   "property": "C164",
   "status": "proved",
   "theorems": [
    "C164_values",
    "C164_has_value"
   ],
   "note": "Extends C137 to documents with AMF3 values and to missing final bytes."
  },
  {
   "property": "C165",
   "status": "proved",
   "theorems": [
    "C165_finite_exactly",
    "C165_stays_finite",
    "C165_duplicates_refuted"
   ],
   "note": "C165_duplicates_refuted shows why repeated names are excluded: a later member of the same name can overwrite the cyclic one."
  },
  {
   "property": "C166",
   "status": "partial",
   "theorems": [
    "C166_amf3_padded_chunks",
    "C166_amf0_padded_chunks",
    "C166_amf3_whole",
    "C166_amf0_whole",
    "C166_cut_content_refuted",
    "C166_cut_string_partial"
   ],
   "note": "The characterisation of successful calls is proved in full; that content survives a cut is refuted, universally. For which cuts a call on an AMF0 document fails see C162."
  },
  {
   "property": "C167",
   "status": "proved",
   "theorems": [
    "C167_relay_viewer"
   ],
   "note": "End-to-end over the models of Demux, the cache by pointer and the mixer. Metadata with @setDataFrame twice is excluded because of C147."
  },
  {
   "property": "C168",
   "status": "proved",
   "theorems": [
    "C168_recording_read_back"
   ],
   "note": "End to end over the models of Demux, both parsers and the TS Mixer. Repeated AVC configurations are included: their parameter sets accumulate (C24), and the key frames carry all of them. Short key frames are outside because of C131."
  },
  {
   "property": "C169",
   "status": "proved",
   "theorems": [
    "C169_ts_viewer"
   ],
   "note": "The TS viewer copies each packet before demuxing it, which the documentation of the packet type does not ask for; the calls are those of C168."
  },
  {
   "property": "C170",
   "status": "proved",
   "theorems": [
    "C170_decode_cut_short",
    "C170_batch_cut_short"
   ],
   "note": "This is the exact version of C58."
  },
  {
   "property": "C171",
   "status": "proved",
   "theorems": [
    "C171_decoded_values_keep"
   ],
   "note": "Maps are the only mutable part of a decoded value in the model; slices are values because the decoder never writes to one after handing it out."
  },
  {
   "property": "C172",
   "status": "proved",
   "theorems": [
    "C172_pieces",
    "C172_decode_cut_short",
    "C172_batch_cut_short"
   ],
   "note": "The exact version of C70 for whole documents. C172_pieces shows that the grammar of pieces and the grammar of C126 describe the same byte strings."
  },
  {
   "property": "C173",
   "status": "proved",
   "theorems": [
    "C173_relation",
    "C173_stream_converted"
   ],
   "note": "The exact version of C21 to C26 for whole streams. C173_relation shows that the specification relates every stream to exactly one list of outputs."
  },
  {
   "property": "C174",
   "status": "proved",
   "theorems": [
    "C174_relation",
    "C174_stream_converted"
   ],
   "note": "The exact version of C15 to C20, C27 and C28 for whole streams. C174_relation shows that the specification relates every stream to exactly one list of outputs and one remembered state."
  },
  {
   "property": "C175",
   "status": "partial",
   "theorems": [
    "C175_version_refuted",
    "C175_late_stream_refuted",
    "C175_version_partial"
   ],
   "note": "False for every history in which audio is configured after a SetTsHeader. Proved: program maps list the same streams while no configuration of a new kind is saved in between."
  },
  {
   "property": "C176",
   "status": "proved",
   "theorems": [
    "C176_player",
    "C176_recording_played"
   ],
   "note": ""
  },
  {
   "property": "C177",
   "status": "partial",
   "theorems": [
    "C177_clock_references",
    "C177_interval_refuted",
    "C177_interval_partial"
   ],
   "note": "False as soon as key frames are more than 100 ms apart; C177_clock_references says where all clock references and random access marks are, exactly."
  },
  {
   "property": "C178",
   "status": "partial",
   "theorems": [
    "C178_in_time_refuted"
   ],
   "note": "False for every key frame of at least two packets. What is true: the clock reference never is later than the decoding time of its own frame (it is equal)."
  },
  {
   "property": "C179",
   "status": "proved",
   "theorems": [
    "C179_mixer",
    "C179_relation"
   ],
   "note": "C179_relation: the description determines exactly one outcome for every history. C179_mixer: the Mixer has this outcome."
  },
  {
   "property": "C180",
   "status": "proved",
   "theorems": [
    "C180_del",
    "C180_add",
    "C180_unique"
   ],
   "note": "Exact for a new decoder of AMF0. That 16 bytes are removed whatever the layout of the command is refuted as correct behaviour in C75."
  },
  {
   "property": "C181",
   "status": "proved",
   "theorems": [
    "C181_encode",
    "C181_fails_iff",
    "C181_count",
    "C181_within_limits",
    "C181_batch"
   ],
   "note": "Extends C95 and C53 to all values."
  },
  {
   "property": "C182",
   "status": "proved",
   "theorems": [
    "C182_relation",
    "C182_mixer",
    "C182_reads_back"
   ],
   "note": "The relation flv_mixed is total and functional (C182_relation) and independent of the model's state."
  },
  {
   "property": "C183",
   "status": "proved",
   "theorems": [
    "C183_encode",
    "C183_relation",
    "C183_fails_iff",
    "C183_within_limits",
    "C183_batch",
    "C183_within_amf0"
   ],
   "note": "Extends C96 and C66 to all values."
  },
  {
   "property": "C184",
   "status": "proved",
   "theorems": [
    "C184_chunks",
    "C184_last"
   ],
   "note": "The AMF3 counterpart of C162."
  },
  {
   "property": "C185",
   "status": "proved",
   "theorems": [
    "C185_object",
    "C185_accepted",
    "C185_panics",
    "C185_refused",
    "C185_total",
    "C185_no_map",
    "C185_unique",
    "C185_behind",
    "C185_both"
   ],
   "note": "Generalises C156 from objects without headers; the exact form of what is false in C153."
  },
  {
   "property": "C186",
   "status": "proved",
   "theorems": [
    "C186_payload",
    "C186_unique",
    "C186_accepted",
    "C186_short",
    "C186_bound"
   ],
   "note": "The exact form of what is false in C91, C93 and C112, for texts in one piece."
  },
  {
   "property": "C187",
   "status": "proved",
   "theorems": [
    "C187_mixer",
    "C187_unique",
    "C187_recovers",
    "C187_segment"
   ],
   "note": "C182 without its restriction to one working writer."
  },
  {
   "property": "C188",
   "status": "proved",
   "theorems": [
    "C188_mixer",
    "C188_segment",
    "C188_learned"
   ],
   "note": "C179 without its restriction to one working writer. Continuity counters go on from the packets attempted (C104)."
  },
  {
   "property": "C189",
   "status": "partial",
   "theorems": [
    "C189_response_partial",
    "C189_two_vias_refuted",
    "C189_trailing_space_refuted"
   ],
   "note": "False of every request with two Via values: only the first is copied. False of a value that ends in a space (a blank continuation line). Proved for the first values, if each is one line without spaces around it; the lines must fit the read buffer. C217 says exactly what arrives."
  },
  {
   "property": "C190",
   "status": "proved",
   "theorems": [
    "C190_passed_on",
    "C190_next_hop",
    "C190_bodies_kept"
   ],
   "note": "The exact form, over any number of hops, of what is false in C91. Texts of more than 4096 bytes are C186."
  },
  {
   "property": "C191",
   "status": "proved",
   "theorems": [
    "C191_read",
    "C191_set",
    "C191_line",
    "C191_other_scheme",
    "C191_digest",
    "C191_scheme"
   ],
   "note": "Says in the reader's terms what the lower case of a name is in C156 and C185. Runes whose lower case is not ASCII are outside (see the trusted base)."
  },
  {
   "property": "C192",
   "status": "proved",
   "theorems": [
    "C192_every_text",
    "C192_characters",
    "C192_parameters",
    "C192_digest",
    "C192_value_kept"
   ],
   "note": "C155 and C191 without the restriction to ASCII."
  },
  {
   "property": "C193",
   "status": "proved",
   "theorems": [
    "C193_one_nearest",
    "C193_amf0_integers",
    "C193_amf3_integers",
    "C193_dates_written",
    "C193_dates_read",
    "C193_milliseconds"
   ],
   "note": "C73 and C71 are the exact cases. The result of int64(x) out of range is the one of amd64 (the Go specification leaves it open)."
  },
  {
   "property": "C194",
   "status": "proved",
   "theorems": [
    "C194_values",
    "C194_one_answer",
    "C194_read_back",
    "C194_kept_exactly",
    "C194_one_line",
    "C194_name_one_line"
   ],
   "note": "C107 without the restriction to printable values. DEL and non-ASCII characters are left out of the first part: how strconv.Quote escapes them depends on the Go release and on the tables of unicode.IsPrint, which are not modelled."
  },
  {
   "property": "C195",
   "status": "partial",
   "theorems": [
    "C195_never_read",
    "C195_same_text",
    "C195_smuggled_refuted"
   ],
   "note": "The claim is false for values given to the setters (header injection); it is proved for everything that Parse stores."
  },
  {
   "property": "C196",
   "status": "proved",
   "theorems": [
    "C196_object",
    "C196_accepted",
    "C196_panics",
    "C196_swallowed",
    "C196_merged",
    "C196_payload_as_headers"
   ],
   "note": "C88 and C116 without the restriction to one value per name."
  },
  {
   "property": "C197",
   "status": "proved",
   "theorems": [
    "C197_audio",
    "C197_video",
    "C197_latest",
    "C197_results",
    "C197_results_unique",
    "C197_refused_sound",
    "C197_time_kept"
   ],
   "note": "C06 says what one call takes over from the Tag; this says where every value comes from."
  },
  {
   "property": "C198",
   "status": "proved",
   "theorems": [
    "C198_amf0",
    "C198_amf0_batch",
    "C198_amf3",
    "C198_amf3_batch",
    "C198_ecma_array",
    "C198_markers",
    "C198_with_amf3",
    "C198_xml_document",
    "C198_beginning"
   ],
   "note": "The exact version of C76 and C97. Writers return an error with every short count, as io.Writer demands."
  },
  {
   "property": "C199",
   "status": "proved",
   "theorems": [
    "C199_history",
    "C199_defined",
    "C199_nil_map"
   ],
   "note": "C86, C108 and C113 for histories. Maps filled by Parse or by assignment to the Go map are not part of these programs (C87, C153, C185)."
  },
  {
   "property": "C200",
   "status": "proved",
   "theorems": [
    "C200_written",
    "C200_accepted",
    "C200_panics",
    "C200_received"
   ],
   "note": "C199, C139 and C196 composed, end to end."
  },
  {
   "property": "C201",
   "status": "proved",
   "theorems": [
    "C201_values",
    "C201_object",
    "C201_accepted",
    "C201_panics",
    "C201_lengths"
   ],
   "note": "What C92 being false means for a connection. Messages with payload in front are C93 and C186."
  },
  {
   "property": "C202",
   "status": "proved",
   "theorems": [
    "C202_written",
    "C202_frame"
   ],
   "note": "Which frames are sent, with which times and media, is C179. The panics are C35 and C38."
  },
  {
   "property": "C203",
   "status": "proved",
   "theorems": [
    "C203_parser",
    "C203_recording"
   ],
   "note": "Sequence headers accumulate (C24) and bytes behind the first PPS are part of it (C25); the statement includes both. A first unit of one byte is C23."
  },
  {
   "property": "C204",
   "status": "proved",
   "theorems": [
    "C204_relayed",
    "C204_saved"
   ],
   "note": "A bytes.Reader must not end with an empty text (C57). A second @setDataFrame is C129."
  },
  {
   "property": "C205",
   "status": "proved",
   "theorems": [
    "C205_again",
    "C205_fresh"
   ],
   "note": "An object that contains itself has no end (C61, C165). A date comes back as the number Decode makes of it (C123). A bytes.Reader must not end with an empty text (C57)."
  },
  {
   "property": "C206",
   "status": "proved",
   "theorems": [
    "C206_loss",
    "C206_join",
    "C206_noticed"
   ],
   "note": "Calls that do not panic (C38) on a writer that works; key frames of at least 170 bytes (C39). SaveAVCHeader and SaveAACHeader leave gaps of their own (C49) and are not among the calls, but may come before."
  },
  {
   "property": "C207",
   "status": "proved",
   "theorems": [
    "C207_parser",
    "C207_recording"
   ],
   "note": "What lies outside of these ranges is C16, and exactly C174."
  },
  {
   "property": "C208",
   "status": "proved",
   "theorems": [
    "C208_any_decoder",
    "C208_again",
    "C208_same"
   ],
   "note": "The counterpart of C205. That arrays cannot be encoded again is part of the statement (C61 lists it as a defect). C208_any_decoder also shows that every decoder is in a state C142, C163 and C164 speak of."
  },
  {
   "property": "C209",
   "status": "proved",
   "theorems": [
    "C209_fan_out",
    "C209_unique",
    "C209_commands"
   ],
   "note": "The exact counterpart of C129."
  },
  {
   "property": "C210",
   "status": "proved",
   "theorems": [
    "C210_history",
    "C210_defined",
    "C210_apart",
    "C210_independent_refuted"
   ],
   "note": "C210_independent_refuted: no converted address is independent of its original. Addresses made as struct literals, with a nil map, and the Name and Src fields are outside the history statement (Name and Src are in C210_apart)."
  },
  {
   "property": "C211",
   "status": "proved",
   "theorems": [
    "C211_subscribers",
    "C211_unique"
   ],
   "note": "The exact counterpart of C147. The replayed pointers are different packets, and the subscribers before had no error (one that fails stops at the failing packet, so that later packets are muxed once less)."
  },
  {
   "property": "C212",
   "status": "proved",
   "theorems": [
    "C212_same",
    "C212_with_last_bytes",
    "C212_after_last_bytes"
   ],
   "note": "The exact counterpart of C141. Reads that return 0, nil are left out: a hundred of them in a row are io.ErrNoProgress, which io.EOF with the hundredth prevents."
  },
  {
   "property": "C213",
   "status": "proved",
   "theorems": [
    "C213_passed_on",
    "C213_next_hop",
    "C213_every_body"
   ],
   "note": "Generalises C190 from texts of at most 4096 bytes given to ParseBytes to connections. That every such body arrives is shown as long as the body is at most 4096 bytes."
  },
  {
   "property": "C214",
   "status": "proved",
   "theorems": [
    "C214_bound",
    "C214_nested"
   ],
   "note": "The exact order of what C159 denies. Buffers made from sizes in the input are counted, not maps nor slices grown by append."
  },
  {
   "property": "C215",
   "status": "proved",
   "theorems": [
    "C215_same",
    "C215_bound",
    "C215_deep",
    "C215_deep0"
   ],
   "note": "Active calls are counted, not the size of their frames, and calls of Decode only (each comes with one or two of its helper functions)."
  },
  {
   "property": "C216",
   "status": "proved",
   "theorems": [
    "C216_same",
    "C216_life",
    "C216_again"
   ],
   "note": "Counted are the buffers the decoders make (as in C159 and C214), not the slice append makes for the results of DecodeBatch, nor maps."
  },
  {
   "property": "C217",
   "status": "proved",
   "theorems": [
    "C217_written",
    "C217_received",
    "C217_kept"
   ],
   "note": "The exact counterpart of C189. The values copied have no CR in them (Parse stores no LF: C195), the names are graphic without colon and not Content-Length, and the lines fit the reader's buffer."
  },
  {
   "property": "C218",
   "status": "proved",
   "theorems": [
    "C218_shown",
    "C218_converted",
    "C218_no_longer",
    "C218_places"
   ],
   "note": "The exact counterpart of C119. What a call converts to is the codec parser's output with all packets owning their bytes, up to its error if it fails; C218_converted shows that a successful Mux shows it."
  },
  {
   "property": "C219",
   "status": "partial",
   "theorems": [
    "C219_no_longer_refuted",
    "C219_no_multiple_refuted",
    "C219_plain_no_longer_partial",
    "C219_exponential_bound"
   ],
   "note": "As stated the property is false: C219_no_longer_refuted gives the exact growth for every depth, C219_no_multiple_refuted shows that no multiple up to 2^65000 is enough. C219_plain_no_longer_partial proves it without references and AMF3 values. C219_exponential_bound: references included, without cycles and AMF3 values, Encode writes less than 2^n bytes for n bytes read by a new decoder."
  },
  {
   "property": "C220",
   "status": "proved",
   "theorems": [
    "C220_quadratic_bound",
    "C220_quadratic_reached",
    "C220_cut_refuted"
   ],
   "note": "The AMF3 counterpart of C219. C220_cut_refuted shows that the hypothesis that input is left is needed."
  },
  {
   "property": "C221",
   "status": "proved",
   "theorems": [
    "C221_edits",
    "C221_text",
    "C221_forward"
   ],
   "note": ""
  },
  {
   "property": "C222",
   "status": "partial",
   "theorems": [
    "C222_never_comes_back_refuted",
    "C222_class_partial",
    "C222_decoded_class"
   ],
   "note": "Refuted for every typed object with a class name longer than 65535 bytes: Encode succeeds and no decoder gives that class. Proved for names up to 65535 bytes, the empty one included, so these are exactly the ones that survive. The counterpart of C63."
  },
  {
   "property": "C223",
   "status": "partial",
   "theorems": [
    "C223_fields",
    "C223_src",
    "C223_name",
    "C223_read_back",
    "C223_via",
    "C223_converted_src_refuted"
   ],
   "note": "The last clause is refuted, for every address: an address that has been written and is then converted has a Src that is not its own text until Bytes is called again. The rest is proved, for SIPUser and SIPRequest through every history; for Via, one call of Bytes. Args is assigned, not changed in place: the map is shared between an address and what it was converted to, which is C210."
  }
 ]
}