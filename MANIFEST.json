{
 "claims": [
  {
   "property": "C01",
   "status": "proved",
   "theorems": [
    "C01_header_roundtrip",
    "C01_built_maps_roundtrip",
    "C01_parsed_maps_roundtrip",
    "C01_header_block_exact",
    "C01_confused_names_refuted",
    "C01_leading_space_refuted"
   ],
   "note": "Round-trip for every map whose names are tokens, whose values have no CR or leading space, and whose names are distinct for the crate's comparison (all reachable maps are distinct). The _refuted theorems show the value and name conditions are needed."
  },
  {
   "property": "C02",
   "status": "proved",
   "theorems": [
    "C02_request_head",
    "C02_request_exact",
    "C02_response_exact"
   ],
   "note": ""
  },
  {
   "property": "C03",
   "status": "partial",
   "theorems": [
    "C03_exact",
    "C03_request_roundtrip_partial",
    "C03_request_reparse_partial",
    "C03_query_refuted",
    "C03_path_refuted",
    "C03_connect_refuted"
   ],
   "note": "Round-trip proved for requests whose target is a plain path; the query is never written, a '%' in the path is decoded twice and CONNECT does not round-trip, each shown by a _refuted theorem. C03_exact: a request is delivered unchanged if and only if those conditions hold."
  },
  {
   "property": "C04",
   "status": "proved",
   "theorems": [
    "C04_request_stable",
    "C04_response_stable",
    "C04_header_stable"
   ],
   "note": ""
  },
  {
   "property": "C05",
   "status": "proved",
   "theorems": [
    "C05_request_prefix",
    "C05_response_prefix"
   ],
   "note": ""
  },
  {
   "property": "C06",
   "status": "proved",
   "theorems": [
    "C06_request_consumed",
    "C06_response_consumed"
   ],
   "note": ""
  },
  {
   "property": "C07",
   "status": "proved",
   "theorems": [
    "C07_request_total",
    "C07_response_total",
    "C07_header_total"
   ],
   "note": ""
  },
  {
   "property": "C08",
   "status": "partial",
   "theorems": [
    "C08_tab_refuted",
    "C08_escape_refuted",
    "C08_request_partial",
    "C08_request_exact",
    "C08_response_partial",
    "C08_response_exact",
    "C08_header_exact",
    "C08_target"
   ],
   "note": "Refuted in general by two witnesses. The hopeless inputs are characterised exactly for requests, responses and header blocks; for every other Partial input a continuation with a definite answer is given."
  },
  {
   "property": "C09",
   "status": "partial",
   "theorems": [
    "C09_exact",
    "C09_response_roundtrip_partial",
    "C09_response_head",
    "C09_unwritable",
    "C09_refuted",
    "C09_empty_reason_refuted"
   ],
   "note": "Round-trip proved for status codes with a canonical reason; other codes cannot be serialised and an empty reason phrase is rejected (_refuted). C09_exact: if and only if."
  },
  {
   "property": "C10",
   "status": "proved",
   "theorems": [
    "C10_from_u16",
    "C10_from_bytes",
    "C10_from_bytes_error",
    "C10_as_str",
    "C10_classes"
   ],
   "note": ""
  },
  {
   "property": "C11",
   "status": "proved",
   "theorems": [
    "C11_method_try_from",
    "C11_method_rejects",
    "C11_method_as_str",
    "C11_method_others",
    "C11_version_parse",
    "C11_version_rejects",
    "C11_version_as_str",
    "C11_version_from_str"
   ],
   "note": ""
  },
  {
   "property": "C12",
   "status": "proved",
   "theorems": [
    "C12_chunks_roundtrip",
    "C12_chunk_wire"
   ],
   "note": ""
  },
  {
   "property": "C13",
   "status": "partial",
   "theorems": [
    "C13_chunk_exact",
    "C13_chunk_stable",
    "C13_encoded_prefix",
    "C13_accepted_prefix",
    "C13_total_partial",
    "C13_short_numerals_partial",
    "C13_large_sizes_panic",
    "C13_total_refuted",
    "C13_trailer_refuted"
   ],
   "note": "Exactness, stability and prefix claims are full. Never panicking is false for sizes of at least 2^64 - 2 (_refuted, and characterised by C13_large_sizes_panic and C13_total_partial)."
  },
  {
   "property": "C14",
   "status": "proved",
   "theorems": [
    "C14_map_refines",
    "C14_clash_free_names",
    "C14_index",
    "C14_values"
   ],
   "note": "Full refinement for every history over names on which the comparison is case-insensitive equality, as the property states; C14_clash_free_names gives a character-level criterion and the usual names meet it."
  },
  {
   "property": "C15",
   "status": "partial",
   "theorems": [
    "C15_ignores_case",
    "C15_equality_partial",
    "C15_letters_partial",
    "C15_lower_case_partial",
    "C15_comparison_exact",
    "C15_reflexive_symmetric",
    "C15_equality_refuted",
    "C15_transitivity_refuted"
   ],
   "note": "Case is always ignored; the converse and transitivity are false for non-letters 32 apart (_refuted). Proved for all clash-free pairs, letters-only names and lower-case names; C15_comparison_exact says what the comparison is."
  },
  {
   "property": "C16",
   "status": "partial",
   "theorems": [
    "C16_hash_is_folded",
    "C16_equal_hash_partial",
    "C16_equal_hash_refuted",
    "C16_same_hash_equal",
    "C16_equal_hash_exact"
   ],
   "note": "False in general (_refuted); proved for clash-free pairs. Exact: names that compare equal hash alike exactly when they are clash-free."
  },
  {
   "property": "C17",
   "status": "partial",
   "theorems": [
    "C17_body_length",
    "C17_no_length",
    "C17_only_numerals_partial",
    "C17_value_exact",
    "C17_panics_exact",
    "C17_found_partial",
    "C17_crash_refuted",
    "C17_not_numeral_refuted",
    "C17_other_header_refuted"
   ],
   "note": "Numerals below 2^63 give their value. Values with '-' and other names that clash with content-length are accepted and 2^63 panics (_refuted); results and panics are characterised exactly. Overflow is modelled as in builds with overflow checks."
  },
  {
   "property": "C18",
   "status": "partial",
   "theorems": [
    "C18_usize",
    "C18_isize_partial",
    "C18_isize_min_refuted",
    "C18_isize_literal",
    "C18_usize_exact",
    "C18_usize_panics",
    "C18_literals_exact",
    "C18_written"
   ],
   "note": "Full for usize and for values made from literals; isize::MIN panics when read back from a built value (_refuted), every other isize round-trips."
  },
  {
   "property": "C19",
   "status": "proved",
   "theorems": [
    "C19_decode_encode",
    "C19_decode_encode_bytes"
   ],
   "note": ""
  },
  {
   "property": "C20",
   "status": "proved",
   "theorems": [
    "C20_encode_exact",
    "C20_encode_visible",
    "C20_encode_injective"
   ],
   "note": ""
  },
  {
   "property": "C21",
   "status": "proved",
   "theorems": [
    "C21_decode_exact",
    "C21_decode_rejects",
    "C21_decode_plain"
   ],
   "note": ""
  },
  {
   "property": "C22",
   "status": "partial",
   "theorems": [
    "C22_exact",
    "C22_display_parse",
    "C22_origin_display_parse",
    "C22_path_query_refuted",
    "C22_at_in_path_refuted",
    "C22_password_refuted"
   ],
   "note": "Proved for every URL whose components are legal where they are written (scheme, host and port present; user and password both or neither), and for origin-form targets. Refuted beyond: Display does not escape '?' and '@' in a path, '@' in a query or ':' in a password. C22_exact: no other URL round-trips."
  },
  {
   "property": "C23",
   "status": "partial",
   "theorems": [
    "C23_parse_total",
    "C23_parsed_url",
    "C23_parse_meaning",
    "C23_parse_exact",
    "C23_path_partial",
    "C23_login_path_partial",
    "C23_path_refuted",
    "C23_authority_refuted",
    "C23_no_host_refuted",
    "C23_logins_refuted",
    "C23_query_refuted"
   ],
   "note": "Total for all bytes; success implies a 16-bit port and UTF-8 components. The exact accepted language and its meaning are proved for all texts (url_means). The path starts with '/' when no '@' follows the authority; refuted otherwise: http://a/b@? has an empty path, http://h/a?to=x@y has no host, and only the last of several logins is looked at."
  },
  {
   "property": "C24",
   "status": "proved",
   "theorems": [
    "C24_default_port",
    "C24_explicit_port",
    "C24_large_port",
    "C24_bad_port",
    "C24_connect_url"
   ],
   "note": "Hosts without percent escapes; the defaults are a separate table, unknown schemes get port 0."
  },
  {
   "property": "C25",
   "status": "proved",
   "theorems": [
    "C25_encode_is_the_code",
    "C25_round_trip",
    "C25_lower_round_trip"
   ],
   "note": ""
  },
  {
   "property": "C26",
   "status": "proved",
   "theorems": [
    "C26_table_is_appendix_B",
    "C26_prefix_free",
    "C26_complete",
    "C26_decode_total"
   ],
   "note": ""
  },
  {
   "property": "C27",
   "status": "partial",
   "theorems": [
    "C27_decode_exact",
    "C27_canonical_partial",
    "C27_injective_partial",
    "C27_canonical_refuted"
   ],
   "note": "The accepted strings are exactly the codes of symbols 0..256 with at most seven one bits of padding; re-encoding gives the input back when the decoded text has no octet 0. Refuted in general: the EOS symbol is accepted and read as octet 0."
  },
  {
   "property": "C28",
   "status": "proved",
   "theorems": [
    "C28_encode_is_rfc",
    "C28_integer_roundtrip",
    "C28_too_large",
    "C28_decode_complete",
    "C28_decode_sound"
   ],
   "note": ""
  },
  {
   "property": "C29",
   "status": "proved",
   "theorems": [
    "C29_size_invariant",
    "C29_decoder_invariant",
    "C29_entries"
   ],
   "note": ""
  },
  {
   "property": "C30",
   "status": "proved",
   "theorems": [
    "C30_eviction_queue",
    "C30_newest_is_longest",
    "C30_index",
    "C30_index_fails"
   ],
   "note": ""
  },
  {
   "property": "C31",
   "status": "partial",
   "theorems": [
    "C31_exact",
    "C31_sync_partial",
    "C31_sync_few_partial",
    "C31_sync_http2_partial",
    "C31_many_entries_refuted",
    "C31_confused_names_refuted",
    "C31_sender_table",
    "C31_sync_near_partial",
    "C31_near_exact",
    "C31_sync_own_names_partial",
    "C31_same_block_refuted"
   ],
   "note": "Holds for names the library's comparison does not confuse in every history where each field, when sent, is new, has a static name or is among the newest 65 entries of the sender's table (C31_sync_near_partial; no other bound), and this is exact for the last field of a block (C31_near_exact). Special cases: fields of size >= k and maxima < 66k; at most 66 fields; at most 65 different fields that are static entries or have names outside the static table. The sender's table is characterised after every history. Refuted with 66 entries (index 127 needs two octets, one is read), by one block of two HTTP/2 fields sent 66 times, and for x-1 / x-Q. C31_exact: all beginnings of a history arrive if and only if every field is near when it is sent."
  },
  {
   "property": "C32",
   "status": "partial",
   "theorems": [
    "C32_no_panic",
    "C32_terminates_partial",
    "C32_refuted",
    "C32_composes"
   ],
   "note": "Never panics; exact characterisation of non-termination: a size-update octet at a field boundary makes the loop spin for ever (refuted by the single octet 0x20)."
  },
  {
   "property": "C33",
   "status": "partial",
   "theorems": [
    "C33_static_table_partial",
    "C33_static_table_refuted",
    "C33_search_sound",
    "C33_static_encoded",
    "C33_static_table_exact"
   ],
   "note": "All entries but 15, which is accept- instead of accept-charset. Search soundness and static encoding in full. Exact: the entry is the registered one if and only if it is not 15."
  },
  {
   "property": "C34",
   "status": "proved",
   "theorems": [
    "C34_encode_is_rfc",
    "C34_header_roundtrip",
    "C34_parse_exact",
    "C34_parse_rejects",
    "C34_total",
    "C34_flags"
   ],
   "note": ""
  },
  {
   "property": "C35",
   "status": "proved",
   "theorems": [
    "C35_settings_roundtrip",
    "C35_ack_roundtrip",
    "C35_settings_on_wire",
    "C35_ack_with_settings_refuted"
   ],
   "note": "Round trip for every legal settings value and for ACK. The ACK-with-settings frame that the setters allow is refused by the receiver (refuted variant)."
  },
  {
   "property": "C36",
   "status": "proved",
   "theorems": [
    "C36_accepts_exactly",
    "C36_rejects_exactly",
    "C36_entries_unique",
    "C36_extended"
   ],
   "note": ""
  },
  {
   "property": "C37",
   "status": "proved",
   "theorems": [
    "C37_roundtrip",
    "C37_is_base64url",
    "C37_reads_any_payload",
    "C37_exact",
    "C37_not_base64",
    "C37_bad_length"
   ],
   "note": ""
  },
  {
   "property": "C38",
   "status": "partial",
   "theorems": [
    "C38_data_split",
    "C38_data_received",
    "C38_set_end_stream",
    "C38_zero_max_diverges",
    "C38_padded_refuted",
    "C38_padded_partial",
    "C38_exact"
   ],
   "note": "For every positive maximum frame size and every flag set without PADDED; a zero maximum diverges, and a frame with the PADDED flag, which encode writes without padding, is refuted. Exact: data that is not empty arrives complete if and only if PADDED is not set; what arrives of padded pieces is stated."
  },
  {
   "property": "C39",
   "status": "partial",
   "theorems": [
    "C39_ping",
    "C39_pong",
    "C39_reset",
    "C39_window_update",
    "C39_goaway",
    "C39_ping_exact",
    "C39_reset_exact",
    "C39_window_update_exact",
    "C39_goaway_exact",
    "C39_priority_partial",
    "C39_priority_refuted",
    "C39_priority_exclusive_refuted",
    "C39_priority_oversize_refuted"
   ],
   "note": "PING, RST_STREAM, WINDOW_UPDATE and GOAWAY in full, with the exact accepted payloads. PRIORITY is refuted: encode announces a length of 0 and drops the exclusive bit, and longer payloads are accepted."
  },
  {
   "property": "C40",
   "status": "partial",
   "theorems": [
    "C40_split_partial",
    "C40_one_frame",
    "C40_end_stream_refuted",
    "C40_continuation_refuted"
   ],
   "note": "Frame sequence, END_HEADERS placement and decoding of the concatenated payloads proved for every connection history; refuted: END_STREAM goes to the last CONTINUATION frame instead of HEADERS, and Frame::parse refuses CONTINUATION frames."
  },
  {
   "property": "C41",
   "status": "partial",
   "theorems": [
    "C41_padding_partial",
    "C41_no_padding",
    "C41_too_much_rejected_partial",
    "C41_padding_refuted",
    "C41_limit_refuted",
    "C41_exact",
    "C41_means"
   ],
   "note": "Exact behaviour of the padding check; refuted: the pad length octet and the padding stay in the payload and a pad length equal to the payload is accepted. Exact: the code agrees with RFC 9113 if and only if the pad length is 0 or larger than the payload."
  },
  {
   "property": "C42",
   "status": "partial",
   "theorems": [
    "C42_panic_partial",
    "C42_diverge_partial",
    "C42_history",
    "C42_refuted"
   ],
   "note": "Exact characterisation (iff) of the payloads for which Frame::parse panics (DATA on stream 0) or loops (HPACK decoder loop); everything else returns. The full property is refuted by those."
  },
  {
   "property": "C43",
   "status": "proved",
   "theorems": [
    "C43_limit",
    "C43_limit_priority"
   ],
   "note": "Acceptance is characterised exactly, with and without the PRIORITY flag."
  },
  {
   "property": "C44",
   "status": "proved",
   "theorems": [
    "C44_ws_header_roundtrip",
    "C44_ws_write_rejects",
    "C44_ws_header_roundtrip_refuted"
   ],
   "note": "Full round-trip for legal headers; the _refuted theorem shows a control header without FIN is written but refused on reading, so FIN is a hypothesis."
  },
  {
   "property": "C45",
   "status": "proved",
   "theorems": [
    "C45_ws_header_canonical",
    "C45_ws_header_truncated"
   ],
   "note": ""
  },
  {
   "property": "C46",
   "status": "proved",
   "theorems": [
    "C46_mask_is_rfc",
    "C46_mask_involution",
    "C46_masker_chunk_independent"
   ],
   "note": "inner_put_slice of the external buffer crate is assumed to copy its argument to the endpoint."
  },
  {
   "property": "C47",
   "status": "proved",
   "theorems": [
    "C47_dataframe_roundtrip",
    "C47_frames_roundtrip"
   ],
   "note": ""
  },
  {
   "property": "C48",
   "status": "proved",
   "theorems": [
    "C48_read_total",
    "C48_read_limit_total",
    "C48_read_limit",
    "C48_read_prefix",
    "C48_read_limit_prefix",
    "C48_read_exact",
    "C48_read_stable"
   ],
   "note": ""
  },
  {
   "property": "C49",
   "status": "proved",
   "theorems": [
    "C49_fragmentation_independent",
    "C49_fragmentation_wire"
   ],
   "note": ""
  },
  {
   "property": "C50",
   "status": "proved",
   "theorems": [
    "C50_pong",
    "C50_message_roundtrip",
    "C50_owned_message_roundtrip",
    "C50_message_size"
   ],
   "note": ""
  },
  {
   "property": "C51",
   "status": "proved",
   "theorems": [
    "C51_text_is_utf8",
    "C51_close_reason_is_utf8",
    "C51_text_iff_utf8"
   ],
   "note": ""
  },
  {
   "property": "C52",
   "status": "partial",
   "theorems": [
    "C52_fragment_validation_partial",
    "C52_missing_fin_refuted",
    "C52_control_fragments_refuted"
   ],
   "note": "Non-empty, continuation opcodes and reserved bits proved; the code does not check FIN flags or fragmented control messages, shown by the two _refuted theorems."
  },
  {
   "property": "C53",
   "status": "proved",
   "theorems": [
    "C53_close_code_roundtrip",
    "C53_close_code_injective"
   ],
   "note": ""
  },
  {
   "property": "C54",
   "status": "proved",
   "theorems": [
    "C54_lookup",
    "C54_len"
   ],
   "note": "Over all histories of insert, remove, get_mut, clear and extend (with arguments built likewise)."
  },
  {
   "property": "C55",
   "status": "partial",
   "theorems": [
    "C55_exact",
    "C55_exact_end_to_end",
    "C55_receive",
    "C55_receive_error",
    "C55_receive_defaults",
    "C55_no_authority",
    "C55_receive_response",
    "C55_end_to_end_partial",
    "C55_dropped_refuted",
    "C55_query_refuted"
   ],
   "note": "Receiving side for every URL text; end to end for URLs with default port, no user and no query and no '%' in the path. Refuted for port, user and query, which Parts::request drops. C55_exact: no other URL is carried over."
  },
  {
   "property": "C56",
   "status": "partial",
   "theorems": [
    "C56_exact",
    "C56_host_completes_partial",
    "C56_other_names_refuted"
   ],
   "note": "Every header list with a Host field, provided no field is named zscheme; refuted with Zscheme and Zauthority, which compare equal to :scheme and :authority. C56_exact: the URL is the right one if and only if every field named Z and scheme keeps the scheme http."
  },
  {
   "property": "C57",
   "status": "proved",
   "theorems": [
    "C57_next_ids",
    "C57_overflow",
    "C57_range_refuted"
   ],
   "note": "In full, with the exact point of overflow (a panic in debug builds). Also shown: ids of 2^31 and more are handed out although they do not survive the wire (refuted variant beyond the statement)."
  },
  {
   "property": "C58",
   "status": "proved",
   "theorems": [
    "C58_pairs_roundtrip",
    "C58_hex_exact",
    "C58_hex_panics"
   ],
   "note": "Accepted texts, results and panics are characterised exactly."
  },
  {
   "property": "C59",
   "status": "proved",
   "theorems": [
    "C59_request_reuse",
    "C59_response_reuse"
   ],
   "note": ""
  },
  {
   "property": "C60",
   "status": "proved",
   "theorems": [
    "C60_request_flag",
    "C60_response_flag",
    "C60_flag_verdict_refuted"
   ],
   "note": "The flag after each call is characterised; the _refuted theorem shows it can disagree with the returned Partial error."
  },
  {
   "property": "C61",
   "status": "partial",
   "theorems": [
    "C61_reason_phrases_partial",
    "C61_reason_phrases_refuted",
    "C61_reason_phrases_exact"
   ],
   "note": "All codes but 103 and 425 (no phrase) and 203 (\"Non Authoritative Information\" without the hyphen). Exact: the phrases are the registered ones if and only if the code is none of the three."
  },
  {
   "property": "C62",
   "status": "partial",
   "theorems": [
    "C62_exact",
    "C62_lossy",
    "C62_reads_rfc_blocks_partial",
    "C62_index_15_refuted",
    "C62_index_127_refuted"
   ],
   "note": "Blocks without size updates, whole-field indices below 127, index 15 unused; refuted for index 15 and index 127. C62_exact goes further: for every octet string it states which blocks the decoder accepts and what it reports for each, and C62_lossy does so for the text decoding."
  },
  {
   "property": "C63",
   "status": "partial",
   "theorems": [
    "C63_exact",
    "C63_writes_rfc_blocks_partial",
    "C63_accept_refuted"
   ],
   "note": "Names without clashes and other than accept-; refuted for accept-, sent as index 15. C63_exact: the block means the fields if and only if none has that name and what the table search finds for each has its name."
  },
  {
   "property": "C64",
   "status": "proved",
   "theorems": [
    "C64_request",
    "C64_response",
    "C64_parts_refuted",
    "C64_repeated_refuted"
   ],
   "note": "For messages that fit one frame (5 * list size <= max_frame_size) and whose field names are distinct. Companion refutations: Parts of the frame are not written; of repeated fields only the last is delivered."
  },
  {
   "property": "C65",
   "status": "partial",
   "theorems": [
    "C65_kind",
    "C65_stream_id_partial",
    "C65_flags_partial",
    "C65_predicates",
    "C65_priority_refuted",
    "C65_ping_ack_refuted",
    "C65_reports_partial"
   ],
   "note": "Kind for every frame, stream id except PRIORITY and GOAWAY, flags for DATA, HEADERS and PUSH_PROMISE; refuted for PRIORITY's stream id and PING's ACK. Exact reports for every kind of frame (C65_reports_partial)."
  },
  {
   "property": "C66",
   "status": "partial",
   "theorems": [
    "C66_frame_size_partial",
    "C66_frame_size_refuted"
   ],
   "note": "Bound max_frame_size + 4 * (largest field size) proved; the bound max_frame_size is refuted."
  },
  {
   "property": "C67",
   "status": "partial",
   "theorems": [
    "C67_wire_partial",
    "C67_received_partial",
    "C67_desync_refuted"
   ],
   "note": "Wire form and the two stream ids proved; refuted: the receiver ignores the header block, and its table gets out of step with the sender's."
  },
  {
   "property": "C68",
   "status": "proved",
   "theorems": [
    "C68_merge",
    "C68_laws",
    "C68_reference",
    "C68_absolute_refuted",
    "C68_root_refuted"
   ],
   "note": "Exact component-wise description and algebraic laws for all URLs. Refuted readings: RFC 3986 resolution (credentials, path and query of the base survive an absolute URL of another host; '/' cannot be reached)."
  },
  {
   "property": "C69",
   "status": "proved",
   "theorems": [
    "C69_fails",
    "C69_ok",
    "C69_parts",
    "C69_last_unique",
    "C69_display_parse",
    "C69_equal_refuted"
   ],
   "note": "The parsed text carries the scheme's default port where none was set (port_of); equality with an absent port is refuted."
  },
  {
   "property": "C70",
   "status": "partial",
   "theorems": [
    "C70_fails",
    "C70_ok",
    "C70_parts",
    "C70_header",
    "C70_refs",
    "C70_sent_partial",
    "C70_partial_refuted",
    "C70_injection_refuted",
    "C70_stale_host_refuted",
    "C70_from_req_partial",
    "C70_from_req_refuted",
    "C70_shown",
    "C70_body_len_failed"
   ],
   "note": "First failure, last value and header map proved for all call sequences. Round trip with the restrictions of C03 and scheme http. Refuted: is_partial() is true after build; CR LF in the Host via an escaped domain; stale Host."
  },
  {
   "property": "C71",
   "status": "proved",
   "theorems": [
    "C71_upgrade",
    "C71_sent"
   ],
   "note": "Names must be clash-free in the sense of C15 (the crate's name comparison is not an equivalence)."
  },
  {
   "property": "C72",
   "status": "partial",
   "theorems": [
    "C72_exact",
    "C72_elements_partial",
    "C72_case_refuted",
    "C72_not_element_refuted"
   ],
   "note": "Exact behaviour proved (word anywhere in the value); elements spelled as expected are recognised. Refuted: other letter case, words that only contain the option."
  },
  {
   "property": "C73",
   "status": "partial",
   "theorems": [
    "C73_agree",
    "C73_literal_partial",
    "C73_equal_refuted",
    "C73_owned_refuted",
    "C73_isize_exact",
    "C73_usize_exact"
   ],
   "note": "Equal when both succeed; literal results carry over except after '+' (and for isize::MIN). Refuted in general. For usize exact: both storages agree if and only if the text is not empty and no numeral after a plus sign. The exact condition for isize is C73_isize_exact."
  },
  {
   "property": "C74",
   "status": "proved",
   "theorems": [
    "C74_registry",
    "C74_unknown",
    "C74_faithful"
   ],
   "note": "All 32-bit codes."
  },
  {
   "property": "C75",
   "status": "partial",
   "theorems": [
    "C75_exact",
    "C75_safe_partial",
    "C75_body_refuted",
    "C75_panic_refuted"
   ],
   "note": "Exact behaviour proved. Refuted: requests without body are rejected and those with one accepted; a Content-Length of 2^63 panics."
  },
  {
   "property": "C76",
   "status": "partial",
   "theorems": [
    "C76_no_injection",
    "C76_forward_partial",
    "C76_forward_refuted"
   ],
   "note": "Proved for every request with legal fields and a target of visible characters, and for forwarding of parsed requests under the same condition on the path; refuted for paths with escaped line breaks."
  },
  {
   "property": "C77",
   "status": "partial",
   "theorems": [
    "C77_fails",
    "C77_ok",
    "C77_parts",
    "C77_header",
    "C77_sent_partial",
    "C77_presets",
    "C77_extension_head",
    "C77_extension",
    "C77_shown_len",
    "C77_body_len_failed"
   ],
   "note": "First failure, last value, header map and presets proved. Round trip for codes with a reason phrase (C09)."
  },
  {
   "property": "C78",
   "status": "partial",
   "theorems": [
    "C78_request",
    "C78_response",
    "C78_parse_partial",
    "C78_lossy_refuted",
    "C78_unknown_code_refuted",
    "C78_exact"
   ],
   "note": "Equal for UTF-8 values whenever serialisation succeeds. Refuted: other values; codes without phrase are displayed but cannot be serialised. Exact: for a message that can be written the two texts agree if and only if all values are UTF-8."
  },
  {
   "property": "C79",
   "status": "partial",
   "theorems": [
    "C79_replace_clone",
    "C79_into",
    "C79_extension_refuted",
    "C79_request_copy"
   ],
   "note": "Heads, bodies and the shared HPACK table proved; refuted: other extensions are dropped by the copy."
  },
  {
   "property": "C80",
   "status": "partial",
   "theorems": [
    "C80_forward_partial",
    "C80_injection_refuted"
   ],
   "note": "Proved for fields legal in HTTP/1; refuted: CR LF in an HPACK string becomes a field."
  },
  {
   "property": "C81",
   "status": "proved",
   "theorems": [
    "C81_requests",
    "C81_responses"
   ],
   "note": "Read_message composes the head parser with hm_is_chunked, hm_body_len and parse_chunk_data as an application does."
  },
  {
   "property": "C82",
   "status": "proved",
   "theorems": [
    "C82_session",
    "C82_truncated",
    "C82_streams"
   ],
   "note": "Header lists fit into one frame (5 * size <= max frame size) and the two dynamic tables start in step, as in C31."
  },
  {
   "property": "C83",
   "status": "proved",
   "theorems": [
    "C83_delivered",
    "C83_exact",
    "C83_truncated"
   ],
   "note": "Both directions: delivery of what was sent, and an exact description of the octets that are accepted."
  },
  {
   "property": "C84",
   "status": "partial",
   "theorems": [
    "C84_http1",
    "C84_bodies",
    "C84_frames",
    "C84_ws_refuted",
    "C84_serialize_refuted",
    "C84_request_left",
    "C84_response_left",
    "C84_untouched_refuted"
   ],
   "note": "Proved for HTTP/1 and for Frame::encode; refuted: WebSocket write_to returns 0, Serialize for Frame writes nothing, a failing head leaves its beginning in the buffer (what exactly is proved)."
  },
  {
   "property": "C85",
   "status": "partial",
   "theorems": [
    "C85_bodies",
    "C85_messages",
    "C85_data",
    "C85_data_refuted"
   ],
   "note": "Proved for messages with every body type and for DATA that fits in one frame; refuted for larger DATA, whose payload is consumed up to the last piece."
  },
  {
   "property": "C86",
   "status": "partial",
   "theorems": [
    "C86_increment",
    "C86_error_code_refuted",
    "C86_written",
    "C86_names",
    "C86_order",
    "C86_equality_refuted"
   ],
   "note": "Increments, names and the order laws are proved; refuted: ErrorCode::parse always gives 0, equal queue entries can carry different frames."
  },
  {
   "property": "C87",
   "status": "partial",
   "theorems": [
    "C87_set_url",
    "C87_sent_partial",
    "C87_first_and_last",
    "C87_second_url_refuted",
    "C87_get_host",
    "C87_authority_port_refuted",
    "C87_other_field_refuted"
   ],
   "note": "Exact effect of set_url and of sequences of it, delivery after the first call; refuted: a second URL leaves the old Host, :authority keeps its port, Zauthority counts as :authority."
  },
  {
   "property": "C88",
   "status": "partial",
   "theorems": [
    "C88_integers",
    "C88_constructors",
    "C88_name_constructors",
    "C88_value_equality",
    "C88_value_reads",
    "C88_names",
    "C88_map",
    "C88_storage",
    "C88_map_equality",
    "C88_body_length_partial",
    "C88_body_length_owned",
    "C88_body_length_literal",
    "C88_body_length_refuted",
    "C88_questions",
    "C88_values",
    "C88_from_bytes"
   ],
   "note": "Equality, hashing, all readings and all map operations and queries agree for the two storages, for every history; the body length agrees for plain numerals and is characterised exactly for each storage; refuted for +5, which is 5 as a literal and 0 as an owned value."
  },
  {
   "property": "C89",
   "status": "partial",
   "theorems": [
    "C89_settings",
    "C89_settings_panic",
    "C89_settings_peer",
    "C89_window_refuted",
    "C89_headers",
    "C89_informational",
    "C89_headers_peer_partial",
    "C89_pseudo_refuted",
    "C89_push",
    "C89_data",
    "C89_data_peer_partial",
    "C89_padded_refuted",
    "C89_flag_tests",
    "C89_flag_setters",
    "C89_stream_ids",
    "C89_stream_order",
    "C89_stream_print",
    "C89_stream_zero",
    "C89_empty",
    "C89_over_size",
    "C89_flag_constants",
    "C89_whole"
   ],
   "note": "Getters and flags for every sequence of calls, the panicking calls exactly, SETTINGS and DATA as the peer sees them. Refuted: pseudo fields set on a HEADERS frame are never sent, a padded DATA frame loses an octet, an illegal window size is only noticed by the peer. For HEADERS the peer part is for requests that fit one frame."
  },
  {
   "property": "C90",
   "status": "partial",
   "theorems": [
    "C90_request",
    "C90_response",
    "C90_url",
    "C90_chunk",
    "C90_texts_differ",
    "C90_incomplete",
    "C90_http2_refuted",
    "C90_ws_read_partial",
    "C90_ws_limit_partial",
    "C90_ws_message_partial",
    "C90_ws_write",
    "C90_ws_refuted"
   ],
   "note": "Non-empty for every error of the HTTP/1, URL and chunk parsers and of the WebSocket writer, and pairwise different; exactly when for the WebSocket readers. Refuted for HTTP/2, whose errors all have the empty text, and for WebSocket protocol errors."
  },
  {
   "property": "C91",
   "status": "partial",
   "theorems": [
    "C91_safe",
    "C91_linear",
    "C91_encode_alone",
    "C91_decode_alone",
    "C91_set_max_alone",
    "C91_no_deadlock",
    "C91_steps_end",
    "C91_finish",
    "C91_callback_refuted"
   ],
   "note": "Proved for all numbers of threads, calls and schedules of the lock operations and stores: no panic, no poisoning, table invariants, every run equal to a run of whole critical sections, no deadlock, no endless run. Refuted for decode_with_cb whose callback uses an encoder on the same table: it runs while the read guard is held and the thread waits for itself."
  },
  {
   "property": "C92",
   "status": "partial",
   "theorems": [
    "C92_one_by_one_partial",
    "C92_interleaved_refuted"
   ],
   "note": "Holds when the blocks are encoded one after another (any threads) and sent in that order, under the conditions of C31. Refuted when another thread's block comes in between: then no order of the blocks on the wire is read right."
  },
  {
   "property": "C93",
   "status": "partial",
   "theorems": [
    "C93_turns_partial",
    "C93_crossing_refuted",
    "C93_rfc_peer_refuted"
   ],
   "note": "Holds between two endpoints that take turns, under the conditions of C31; the two tables stay the same. Refuted when blocks cross, and with a peer that keeps one table for each direction as RFC 7541 demands."
  },
  {
   "property": "C94",
   "status": "partial",
   "theorems": [
    "C94_letters",
    "C94_digits",
    "C94_hex_digits",
    "C94_hex_value",
    "C94_hex_digit",
    "C94_hex_digit_panics",
    "C94_hex_inverse",
    "C94_token",
    "C94_reason",
    "C94_header_name",
    "C94_header_value",
    "C94_scheme",
    "C94_unescaped",
    "C94_uri",
    "C94_token_documented_refuted",
    "C94_uri_documented_refuted",
    "C94_unescaped_documented_refuted"
   ],
   "note": "Every class is characterised exactly, octet by octet. Refuted against the documentation of three: is_token accepts delimiters, is_uri_token accepts characters that are not in its list (braces, quote, backslash, backquote, bar), the octets left unescaped include = and @ but not ~. Outside 0..15 to_hex panics."
  },
  {
   "property": "C95",
   "status": "partial",
   "theorems": [
    "C95_method_exact",
    "C95_method_rejects",
    "C95_method_any_case_partial",
    "C95_method_any_case_refuted",
    "C95_scheme_exact",
    "C95_scheme_refuted",
    "C95_scheme_round_trip",
    "C95_scheme_predicates",
    "C95_version_round_trip",
    "C95_version_unknown",
    "C95_version_predicates",
    "C95_url_text",
    "C95_url_text_parses",
    "C95_url_text_refuted"
   ],
   "note": "Methods: exact for all Unicode text; the nine names in any case for ASCII text; refuted beyond ASCII (a ligature st reads as ST, dotless i as I). Schemes by str::parse: exact; refuted, no known scheme is ever read since the text is upper-cased first. TryFrom, versions, predicates, comparison of a Url with text: proved exactly. Refuted that a text equals one URL only."
  },
  {
   "property": "C96",
   "status": "partial",
   "theorems": [
    "C96_request",
    "C96_response",
    "C96_request_sent",
    "C96_request_parts",
    "C96_response_parts",
    "C96_into_binary",
    "C96_parts_partial_refuted",
    "C96_new",
    "C96_predicates",
    "C96_equality",
    "C96_lengths"
   ],
   "note": "All sequences of calls and all conversions: proved. Refuted: from_parts and new_by_parts forget that a head was incomplete (exactly then from_parts(into_parts(r)) is not r)."
  },
  {
   "property": "C97",
   "status": "partial",
   "theorems": [
    "C97_last_value",
    "C97_fields",
    "C97_empty",
    "C97_equality",
    "C97_clone",
    "C97_clear_refuted",
    "C97_transitive_refuted"
   ],
   "note": "All but clear: proved for all sequences of calls. Refuted: clear (and so parsing into a used message) leaves the system_insert entries; == is not transitive and does not imply equal octets."
  },
  {
   "property": "C98",
   "status": "proved",
   "theorems": [
    "C98_exact",
    "C98_stream",
    "C98_unambiguous",
    "C98_header_list"
   ],
   "note": "Accepted octets, frames and tables exactly, per frame and per connection. The grammar states where the reader is more liberal than RFC 9113 (padding kept, short PUSH_PROMISE, long PRIORITY, repeated and unknown pseudo headers)."
  },
  {
   "property": "C99",
   "status": "proved",
   "theorems": [
    "C99_on_the_wire",
    "C99_long_control_refused",
    "C99_kinds",
    "C99_same_octets",
    "C99_there_and_back",
    "C99_back_and_there",
    "C99_conversions",
    "C99_close_data",
    "C99_close_new",
    "C99_string_arrives"
   ],
   "note": "Octets exactly, refusal of long control messages, both conversions (the second as an equivalence)."
  },
  {
   "property": "C100",
   "status": "proved",
   "theorems": [
    "C100_constants",
    "C100_display",
    "C100_header",
    "C100_equality",
    "C100_default"
   ],
   "note": "The names are compared with the crate's own phrases; the phrases with the registry in C61. Display, status line, pseudo header, comparisons and default."
  },
  {
   "property": "C101",
   "status": "proved",
   "theorems": [
    "C101_preface",
    "C101_types",
    "C101_ping",
    "C101_answer",
    "C101_payloads",
    "C101_payload_octets",
    "C101_goaway",
    "C101_reset",
    "C101_window_update",
    "C101_priority_into",
    "C101_read_u64",
    "C101_stream_ids"
   ],
   "note": "Octets and receipt of frames made by constructors; PRIORITY frames are not written properly by the code (C39) and only the components read are stated here."
  },
  {
   "property": "C102",
   "status": "proved",
   "theorems": [
    "C102_exact",
    "C102_panics",
    "C102_hangs",
    "C102_complete",
    "C102_one_error",
    "C102_short",
    "C102_final",
    "C102_table"
   ],
   "note": "Equivalences for all four outcomes of reading one frame from the input (header, payload taken by its length, Frame::parse); the first two octet-level specifications with C98 cover every input without overlap. That input shorter than the announced payload gives Short is a property of the reading loop around Frame::parse, which the crate leaves to its user."
  },
  {
   "property": "C103",
   "status": "proved",
   "theorems": [
    "C103_request_exact",
    "C103_response_exact",
    "C103_url_exact",
    "C103_chunk_exact",
    "C103_chunk_panics",
    "C103_request_complete",
    "C103_response_complete",
    "C103_url_complete",
    "C103_chunk_complete",
    "C103_one_error",
    "C103_request_errors",
    "C103_response_errors",
    "C103_url_errors",
    "C103_chunk_errors",
    "C103_url_kept",
    "C103_partial_flag"
   ],
   "note": "Equivalences for the errors of the four readers and for the panic of the chunk reader; with C02, C23 and C13 the specifications cover every input without overlap. The values of the fields in front of the defect are those of C02."
  },
  {
   "property": "C104",
   "status": "partial",
   "theorems": [
    "C104_header_exact",
    "C104_frame_exact",
    "C104_limited_exact",
    "C104_frame_complete",
    "C104_frame_good",
    "C104_error_final",
    "C104_more_data_partial",
    "C104_never_frame",
    "C104_more_data_refuted",
    "C104_message_exact",
    "C104_owned_exact",
    "C104_message_complete"
   ],
   "note": "The errors of the readers and of the message builder are proved exact, complete and final. Unexpected end is proved completable except for the listed beginnings (non-final control octet, control frame with extended length, eight-octet length starting with six zero octets); for those it is refuted: no continuation is accepted."
  },
  {
   "property": "C105",
   "status": "partial",
   "theorems": [
    "C105_request_taken",
    "C105_response_taken",
    "C105_request_left",
    "C105_response_left",
    "C105_request_unmoved",
    "C105_response_unmoved",
    "C105_request_repeat_partial",
    "C105_response_repeat_partial",
    "C105_request_repeat_cr_partial",
    "C105_response_repeat_cr_partial",
    "C105_request_forgets",
    "C105_request_repeat_refuted",
    "C105_response_repeat_refuted",
    "C105_scheme_left",
    "C105_ws_same",
    "C105_ws_left",
    "C105_ws_taken",
    "C105_ws_repeat_partial",
    "C105_ws_repeat_refuted",
    "C105_frame_header_left",
    "C105_block_left",
    "C105_block_same",
    "C105_block_repeat"
   ],
   "note": "The octets left are proved exact for every failed call of every reader named. Repeating the call is proved right for header blocks always, and for HTTP/1 heads while only blank lines and a part of the first word have come; after that it is refuted: the start of the head is gone, and a header value that comes later is read as a new request or status line. For unmasked WebSocket frames a repeated call is right exactly when nothing had come before (a masked one can come out right by chance)."
  },
  {
   "property": "C106",
   "status": "partial",
   "theorems": [
    "C106_huffman",
    "C106_huffman_reached",
    "C106_lossy",
    "C106_lossy_reached",
    "C106_fields",
    "C106_fields_reached",
    "C106_limit_refuted",
    "C106_frame",
    "C106_url",
    "C106_request",
    "C106_response",
    "C106_chunk",
    "C106_ws",
    "C106_message"
   ],
   "note": "All the bounds are proved, and reached for Huffman strings, replacement characters and header blocks; what is kept of an accepted header list is within three times the limit. Refuted: the limit does not bound what is made, since the whole list is decoded before its size is looked at; with a table of 4096 octets each further octet of the block makes a field of 4064 octets. The size of Rust's own structures is not counted."
  },
  {
   "property": "C107",
   "status": "partial",
   "theorems": [
    "C107_request",
    "C107_response",
    "C107_ws",
    "C107_field",
    "C107_block",
    "C107_block_written",
    "C107_tables",
    "C107_frame",
    "C107_frame_ends",
    "C107_length_refuted"
   ],
   "note": "Equivalences: the writer gives exactly the outcome that the grammar of S_WriteAll.v names, for every object and every table. Refuted: the length field has only the low 24 bits of the length (a GOAWAY frame of 2^24 octets is written with length 0 and refused), PRIORITY is written with length 0 (C39), and data with frame size 0 is written for ever (C38). Header names are octet strings; map insertion of the pseudo fields of a promise is the one of C14."
  },
  {
   "property": "C108",
   "status": "proved",
   "theorems": [
    "C108_request",
    "C108_method",
    "C108_version",
    "C108_read",
    "C108_origin",
    "C108_absolute",
    "C108_asterisk",
    "C108_host",
    "C108_response",
    "C108_request_refuted",
    "C108_fields_refuted",
    "C108_others_refuted"
   ],
   "note": "Equivalences for request and response heads and for the four forms of targets against the grammar in S_Rfc9112.v. The _refuted theorems give conforming heads outside of the conditions: other methods, HTTP/1.2, OPTIONS *, '@' in a path, blanks behind a value, two fields of one list, IPv6 hosts, a missing reason. IP-literal is taken wider than RFC 3986 has it; user information is left out as RFC 9110 section 4.2.4 asks."
  },
  {
   "property": "C109",
   "status": "proved",
   "theorems": [
    "C109_request",
    "C109_response",
    "C109_block",
    "C109_block_end",
    "C109_line",
    "C109_empty_line",
    "C109_values_refuted",
    "C109_heads_refuted"
   ],
   "note": "Equivalences for every accepted head. The _refuted theorems show that each deviation does occur; a value may hold any octets but CR, so a lone LF hides further fields from this reader that another one sees."
  },
  {
   "property": "C110",
   "status": "proved",
   "theorems": [
    "C110_read",
    "C110_strict",
    "C110_header_list",
    "C110_headers",
    "C110_padding_refuted",
    "C110_flags_refuted",
    "C110_types_refuted",
    "C110_strict_refuted",
    "C110_header_list_refuted"
   ],
   "note": "Equivalences against the frames of S_Rfc9113.v (section 6 and 8.3 of the RFC). PUSH_PROMISE and CONTINUATION are left out: the first is read without its block (C98), the second is never accepted (C110_types_refuted). Blocks are in the HPACK of RFC 7541 as far as the decoder knows it (C62). The _refuted theorems show the deviations: padding is kept, undefined flags and unknown types are refused, lax stream identifiers and lengths."
  },
  {
   "property": "C111",
   "status": "proved",
   "theorems": [
    "C111_received",
    "C111_accepted",
    "C111_strict",
    "C111_sent",
    "C111_strict_refuted",
    "C111_length_refuted"
   ],
   "note": "Equivalences against RFC 6455 sections 5 and 7.4 in S_Rfc6455.v, for the receiver that reads frame by frame (S_WsTalk.v: the crate has readers for frames and for lists of frames, the loop around them is the caller's). The _refuted theorems show that each of the four conditions is needed."
  },
  {
   "property": "C112",
   "status": "proved",
   "theorems": [
    "C112_read",
    "C112_extensions",
    "C112_trailer",
    "C112_accepted",
    "C112_sent",
    "C112_read_refuted",
    "C112_blank_refuted",
    "C112_strict_refuted"
   ],
   "note": "Equivalences against RFC 9112 section 7.1 in S_RfcBody.v, for the client's loop of S_Http1Api.v around parse_chunk_data (the crate leaves the loop to its caller). Sizes n with n+2 < 2^64. The _refuted theorems show bodies of the RFC that are not read, and accepted bodies that the RFC does not have."
  },
  {
   "property": "C113",
   "status": "proved",
   "theorems": [
    "C113_body",
    "C113_message",
    "C113_messages",
    "C113_smuggling_refuted",
    "C113_invalid_refuted"
   ],
   "note": "Equivalences against RFC 9112 sections 6.3 and 7.1 in S_RfcMessage.v, for the receiver of C81 (S_Stream.v; the crate leaves reading the body to its caller). C113_smuggling_refuted: with Transfer-Encoding: Chunked the Content-Length is used and the body becomes a second request; C113_invalid_refuted: requests that have to be refused are read."
  },
  {
   "property": "C114",
   "status": "proved",
   "theorems": [
    "C114_nobody",
    "C114_body",
    "C114_reply",
    "C114_replies",
    "C114_not_modified_refuted",
    "C114_left_over_refuted",
    "C114_close_refuted",
    "C114_get_refuted"
   ],
   "note": "Equivalences against RFC 9112 section 6.3 in S_RfcReply.v (the crate leaves reading the body to its caller; the receiver is that of C81 with res_nobody in front). C114_not_modified_refuted: a 304 with Content-Length swallows octets of the next response; C114_left_over_refuted: the body of an answer to OPTIONS or of a refused CONNECT becomes a response that nobody sent; C114_close_refuted: bodies until close are not read; C114_get_refuted: is_nobody denies bodies of GET requests."
  },
  {
   "property": "C115",
   "status": "proved",
   "theorems": [
    "C115_request",
    "C115_connect",
    "C115_response",
    "C115_request_frame",
    "C115_connect_frame",
    "C115_response_frame",
    "C115_conforming",
    "C115_glued_refuted",
    "C115_malformed_refuted",
    "C115_hosts_refuted",
    "C115_at_refuted",
    "C115_version_refuted",
    "C115_refused_refuted"
   ],
   "note": "Equivalences against RFC 9113 sections 8.2 to 8.5 in S_RfcMeans.v. C115_at_refuted: a conforming request for http://good.com/a@evil.com goes to evil.com; C115_glued_refuted: a path that does not start with '/' becomes the end of the host; C115_hosts_refuted: two hosts; C115_malformed_refuted: eleven kinds of malformed lists that are taken for requests; C115_refused_refuted: conforming requests that are refused or misread; C115_version_refuted: every request says HTTP/1.1."
  },
  {
   "property": "C116",
   "status": "proved",
   "theorems": [
    "C116_uri",
    "C116_fragment_refuted",
    "C116_accident",
    "C116_display",
    "C116_host_refuted",
    "C116_unreadable_refuted"
   ],
   "note": "Equivalence against RFC 3986 in S_Rfc3986.v (IP literals wider than the RFC). C116_fragment_refuted: a fragment becomes part of the path, query or host; C116_accident: with an '@' in the fragment it may come out right; C116_unreadable_refuted: user without password, IPv6 hosts and empty ports are refused, HTTP in upper case is another scheme with port 0, http://h?8 goes to port 8, http://h/a@b goes to host b; C116_host_refuted: hosts that no URI has are parsed and displayed."
  },
  {
   "property": "C117",
   "status": "proved",
   "theorems": [
    "C117_request",
    "C117_response",
    "C117_chunks",
    "C117_built",
    "C117_connect_refuted",
    "C117_query_refuted",
    "C117_path_refuted",
    "C117_coded_refuted",
    "C117_chunked_refuted",
    "C117_version_refuted",
    "C117_nobody_refuted"
   ],
   "note": "Equivalences against RFC 9112 in S_RfcSend.v, independent of the crate's own parsers. The _refuted theorems name the objects that are written and not conforming or not as meant: CONNECT always, every URL with a query, paths that need escapes, every message with Transfer-Encoding: chunked (the body is not chunked), HTTP/2 and HTTP/3 versions, bodies behind 204."
  },
  {
   "property": "C118",
   "status": "proved",
   "theorems": [
    "C118_frame",
    "C118_headers",
    "C118_block_unique",
    "C118_priority_refuted",
    "C118_push_refuted",
    "C118_end_stream_refuted",
    "C118_parts_refuted",
    "C118_size_refuted",
    "C118_odd_refuted"
   ],
   "note": "An equivalence for every frame kind against RFC 9113 and RFC 7541 in S_RfcFrames.v. HEADERS frames with the flags PADDED or PRIORITY given to the constructor and header blocks of 16 MiB and more are left out of the equivalence. The _refuted theorems name what is written and not conforming: every PRIORITY and PUSH_PROMISE frame, END_STREAM of a block of several frames, pseudo parts and priorities of HEADERS, header frames longer than the limit, and illegal numbers."
  },
  {
   "property": "C119",
   "status": "proved",
   "theorems": [
    "C119_frames",
    "C119_unique",
    "C119_owned",
    "C119_message",
    "C119_text_code_refuted",
    "C119_text_refuted",
    "C119_close_refuted",
    "C119_frame_refuted",
    "C119_owned_refuted"
   ],
   "note": "Equivalences against the RFC 6455 grammar of S_Rfc6455.v for arbitrary sequences of written objects, for OwnedMessage sequences and for Message values. The _refuted theorems name what is written and not conforming: texts with a status code, payloads that are not UTF-8, reserved bits, unfinished control frames, reserved opcodes, close codes that may not be sent, data after a close, wrong masking and lengths from 2^63 on."
  },
  {
   "property": "C120",
   "status": "proved",
   "theorems": [
    "C120_request",
    "C120_request_wire",
    "C120_response",
    "C120_response_wire",
    "C120_unique",
    "C120_url_refuted",
    "C120_host_refuted",
    "C120_connection_refuted",
    "C120_connect_refuted",
    "C120_onto_refuted",
    "C120_response_onto_refuted",
    "C120_name_refuted"
   ],
   "note": "Equivalences against the messages of RFC 9113 section 8.3 (S_RfcMeans.v) for the lists of fields, and for the octets under the conditions of C118. The _refuted theorems name what is sent and not conforming: URLs with a query, a user or another port, every request whose Host field the builder made, fields of the connection, CONNECT always, header maps given to encode_header, and fields whose names compare equal to those of pseudo header fields."
  },
  {
   "property": "C121",
   "status": "proved",
   "theorems": [
    "C121_display",
    "C121_authority",
    "C121_connect",
    "C121_one_uri",
    "C121_one_url",
    "C121_injective",
    "C121_mark_refuted",
    "C121_user_refuted",
    "C121_password_refuted",
    "C121_host_refuted",
    "C121_port_refuted",
    "C121_path_refuted"
   ],
   "note": "Equivalences against the grammar and meaning of S_Rfc3986.v. The _refuted theorems give Urls that show another URL: '?' in a path, '/' in a user (another host), a user without a password, an escape in a host; and those that show none: a port without a scheme, a path without '/'."
  },
  {
   "property": "C122",
   "status": "proved",
   "theorems": [
    "C122_origin",
    "C122_absolute",
    "C122_response",
    "C122_http2",
    "C122_http2_response",
    "C122_connect_refuted",
    "C122_chunked_refuted",
    "C122_escape_refuted",
    "C122_length_refuted",
    "C122_host_refuted"
   ],
   "note": "Equivalences, for messages that C113, C114 and C115 show to be read as meant. The _refuted theorems give messages that become something else on the way: one request that becomes two (chunked content, an escaped line end in the path, HTTP/2 content without a length), a proxy request for one host that is sent on for another, and CONNECT, always."
  },
  {
   "property": "C123",
   "status": "proved",
   "theorems": [
    "C123_origin",
    "C123_absolute",
    "C123_http2",
    "C123_response",
    "C123_http2_response",
    "C123_hostless_refuted",
    "C123_port_refuted",
    "C123_connection_refuted",
    "C123_connection_response_refuted",
    "C123_name_refuted"
   ],
   "note": "Equivalences, for messages that C113, C114 and C115 show to be read as meant. The _refuted theorems: every HTTP/2 request without a host field, every HTTP/1 request with a port in its Host field and every one with a field of the connection is sent on malformed, and a field called Zpath or Zauthority sends a request to another path or host."
  },
  {
   "property": "C124",
   "status": "proved",
   "theorems": [
    "C124_frame",
    "C124_headers",
    "C124_message_refuted",
    "C124_padded_refuted",
    "C124_priority_refuted"
   ],
   "note": "Equivalences for frames that C110 shows to be read as meant, with the specification of what is sent of C118. HEADERS: names of lower case tokens without the circumflex. The _refuted theorems: no request and no response is sent on by writing the frame, PRIORITY never arrives, and a DATA frame with the flag PADDED becomes one with other data."
  },
  {
   "property": "C125",
   "status": "proved",
   "theorems": [
    "C125_messages",
    "C125_said",
    "C125_frames",
    "C125_frames_said",
    "C125_code_refuted",
    "C125_close_refuted",
    "C125_joined_refuted"
   ],
   "note": "Equivalences; C111 gives what was received and C119 what is written. Messages of 2^64 octets and more are left out. The _refuted theorems: forbidden codes and data after a close are passed on, and two fragments of less than 2^63 octets each become one message that is too long."
  },
  {
   "property": "C126",
   "status": "proved",
   "theorems": [
    "C126_shown",
    "C126_parsed",
    "C126_any",
    "C126_at_refuted",
    "C126_user_refuted",
    "C126_host_refuted"
   ],
   "note": "Equivalences, decided from the parts of the URI that was received; C126_any for texts that are no URIs. The _refuted theorems give URIs whose host is another one after they have been parsed and shown: http://good/%40evil (for the crate), http://evil%2Fx:y@good/ (for other readers) and http://evil%2F.good/ (for both)."
  },
  {
   "property": "C127",
   "status": "proved",
   "theorems": [
    "C127_list",
    "C127_names",
    "C127_marks",
    "C127_unmarked",
    "C127_secret_refuted"
   ],
   "note": "C127_list and C127_names are equivalences for the fields; C127_marks says that marks are lost from every block that has one (C127_marks, C127_secret_refuted). Blocks without size updates, names of ASCII and strings below 2^26 octets."
  },
  {
   "property": "C128",
   "status": "proved",
   "theorems": [
    "C128_same",
    "C128_content",
    "C128_any",
    "C128_twice",
    "C128_extensions",
    "C128_trailer",
    "C128_same_refuted",
    "C128_smuggling_refuted"
   ],
   "note": "C128_same is an equivalence; C128_any and C128_twice hold for all octets that are accepted. C128_same_refuted and C128_smuggling_refuted show what a relay loses and what a trailer field can do."
  },
  {
   "property": "C129",
   "status": "proved",
   "theorems": [
    "C129_relay",
    "C129_arrives",
    "C129_only",
    "C129_streams",
    "C129_frames_refuted"
   ],
   "note": "Items as in C82 (header lists that fit into one frame; tables as in C31). C129_arrives and C129_only: what comes out is what C82 gives for one connection, and only that; C129_frames_refuted for relays that write the frames themselves."
  },
  {
   "property": "C130",
   "status": "proved",
   "theorems": [
    "C130_requests",
    "C130_responses",
    "C130_exact",
    "C130_escapes_refuted",
    "C130_query_refuted",
    "C130_blank_refuted"
   ],
   "note": "Messages as in C81. C130_exact is an equivalence for single requests other than CONNECT (CONNECT: C122_connect_refuted). C130_escapes_refuted, C130_query_refuted and C130_blank_refuted show what happens to other targets."
  },
  {
   "property": "C131",
   "status": "proved",
   "theorems": [
    "C131_messages",
    "C131_said",
    "C131_frames",
    "C131_fragments_refuted",
    "C131_reserved_refuted"
   ],
   "note": "The receiver is that of C111 (control frames are messages, others are kept until FIN). C131_fragments_refuted and C131_reserved_refuted show what does not pass an intermediary that sends on messages."
  },
  {
   "property": "C132",
   "status": "proved",
   "theorems": [
    "C132_requests",
    "C132_responses",
    "C132_scheme_refuted",
    "C132_alias_refuted"
   ],
   "note": "Over HTTP/2 the gateway sends the pseudo header fields first (the list of C120) with names in lower case, as the HPACK encoder writes them; that the list crosses the connection unchanged is C129. C132_scheme_refuted and C132_alias_refuted show why http and true names of the framing fields are required."
  },
  {
   "property": "C133",
   "status": "proved",
   "theorems": [
    "C133_path",
    "C133_uri",
    "C133_network_refuted",
    "C133_relative_refuted",
    "C133_secret_refuted"
   ],
   "note": "remove_dot_segments and the resolution are written after RFC 3986 5.2.2-5.2.4 and checked on its examples (C133_dots, C133_resolved). Equivalences for the two kinds that can be read as meant; C133_network_refuted and C133_relative_refuted hold for all references of the other three kinds."
  },
  {
   "property": "C134",
   "status": "proved",
   "theorems": [
    "C134_requests",
    "C134_responses",
    "C134_websocket",
    "C134_http2",
    "C134_short",
    "C134_delivered"
   ],
   "note": "feed and all (S_Packets) are the receiver, a loop around the API; the HTTP/1 reader starts each attempt with a new object (C59: a used one gives the same). The HTTP/2 reader waits exactly while the answer would be Short (C134_short)."
  },
  {
   "property": "C135",
   "status": "proved",
   "theorems": [
    "C135_requests",
    "C135_responses",
    "C135_http2",
    "C135_websocket",
    "C135_talk"
   ],
   "note": "carries (S_Net) says it for any reader; C81-C83 give what is written and read at once, C134 the rest. The hypothesis bytes_ok w says only that what was written consists of octets, which the model does not force on payloads. C135_talk: the WebSocket receiver of messages does not depend on packets for any octets."
  },
  {
   "property": "C136",
   "status": "proved",
   "theorems": [
    "C136_spelled",
    "C136_different",
    "C136_legal",
    "C136_taken",
    "C136_letters",
    "C136_hyphen_refuted",
    "C136_one",
    "C136_others",
    "C136_variables",
    "C136_received",
    "C136_made",
    "C136_from_bytes",
    "C136_texts"
   ],
   "note": "The table of 81 rows is copied from the source with its lines (M_Names). That a constant finds foreign names is part of the statement (C136_taken exact; C136_hyphen_refuted for every constant with '-'). C136_received and C136_made show that the condition single of C136_variables holds."
  },
  {
   "property": "C137",
   "status": "proved",
   "theorems": [
    "C137_requests",
    "C137_responses",
    "C137_websocket",
    "C137_http2"
   ],
   "note": "The receivers are those of C134 and C135 (the library's parsers called again when more octets have arrived). The panics and the loop are findings (sections 5 of DESIGN.md; C17, C102); here it is proved that there are no others on a whole connection."
  },
  {
   "property": "C138",
   "status": "proved",
   "theorems": [
    "C138_http2",
    "C138_websocket",
    "C138_limit",
    "C138_requests",
    "C138_responses",
    "C138_fragments"
   ],
   "note": "The receivers are those of C134 and C135. Both directions of each bound are proved (can_keep, iff). Allocator overhead and capacity growth of the buffer are not modelled."
  },
  {
   "property": "C139",
   "status": "proved",
   "theorems": [
    "C139_requests",
    "C139_responses",
    "C139_frames",
    "C139_messages",
    "C139_http2",
    "C139_closed",
    "C139_unique"
   ],
   "note": "The receivers are those of C134 and C135. What a text means compared with the RFCs (where this receiver and another one may divide differently) is the subject of C108 to C114."
  },
  {
   "property": "C140",
   "status": "partial",
   "theorems": [
    "C140_schedules_partial",
    "C140_small_tables_partial",
    "C140_orders_partial",
    "C140_default_table_refuted"
   ],
   "note": "Proved for tables below 66 times k octets when each field has at least k (HPACK counts 32 more than name and value), so below 2112 octets for all fields. Not so for the default table of 4096 octets: C140_default_table_refuted gives two streams that arrive in one order and end the connection in another, because an index that takes two octets is misread (C31)."
  }
 ]
}