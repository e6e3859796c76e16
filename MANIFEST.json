{
 "claims": [
  {
   "property": "C01",
   "status": "proved",
   "theorems": [
    "C01_framing"
   ],
   "note": ""
  },
  {
   "property": "C02",
   "status": "proved",
   "theorems": [
    "C02_fitting_lines_returned",
    "C02_never_longer",
    "C02_too_long_rejected",
    "C02_no_limit"
   ],
   "note": ""
  },
  {
   "property": "C03",
   "status": "partial",
   "theorems": [
    "C03_hard_limit_refuted",
    "C03_hard_limit_partial"
   ],
   "note": "The limit is checked before the last piece is appended; the hard bound is false (_refuted), the true bound is limit-1+2048 (_partial)."
  },
  {
   "property": "C04",
   "status": "proved",
   "theorems": [
    "C04_hooks",
    "C04_report_exists"
   ],
   "note": ""
  },
  {
   "property": "C05",
   "status": "proved",
   "theorems": [
    "C05_binary",
    "C05_huge_refuted"
   ],
   "note": "Proved for sizes below 2^63 (int64 conversion); C05_huge_refuted shows what happens above."
  },
  {
   "property": "C06",
   "status": "proved",
   "theorems": [
    "C06_error_with_partial",
    "C06_only_terminated_lines",
    "C06_transient_error_refuted"
   ],
   "note": "Proved for permanent errors; C06_transient_error_refuted: after a transient error the tail of the line is returned as a line."
  },
  {
   "property": "C07",
   "status": "proved",
   "theorems": [
    "C07_closed",
    "C07_close_closes",
    "C07_released"
   ],
   "note": ""
  },
  {
   "property": "C08",
   "status": "partial",
   "theorems": [
    "C08_zlib",
    "C08_failed_enable_refuted",
    "C08_empty_read_refuted"
   ],
   "note": "Proved for connections without empty reads; C08_empty_read_refuted: an empty read panics; C08_failed_enable_refuted: a failed EnableZlib is permanent."
  },
  {
   "property": "C09",
   "status": "proved",
   "theorems": [
    "C09_in_order"
   ],
   "note": ""
  },
  {
   "property": "C10",
   "status": "partial",
   "theorems": [
    "C10_sticky",
    "C10_failure_sticks",
    "C10_prefix",
    "C10_write_error_refuted"
   ],
   "note": "Sticky for WriteLine and Flush and prefix property proved; C10_write_error_refuted: an error of Write is not sticky."
  },
  {
   "property": "C11",
   "status": "partial",
   "theorems": [
    "C11_bracketed",
    "C11_unbracketed_refuted"
   ],
   "note": "Proved for WriteLine and Flush; Write, DisableZlib and Close bypass the timeout (C11_unbracketed_refuted)."
  },
  {
   "property": "C12",
   "status": "proved",
   "theorems": [
    "C12_drop",
    "C12_fail",
    "C12_asked",
    "C12_registered"
   ],
   "note": ""
  },
  {
   "property": "C13",
   "status": "proved",
   "theorems": [
    "C13_sections",
    "C13_short_writes_refuted"
   ],
   "note": "For connections obeying io.Writer; C13_short_writes_refuted shows the hypothesis is needed."
  },
  {
   "property": "C14",
   "status": "partial",
   "theorems": [
    "C14_close",
    "C14_close_twice_refuted"
   ],
   "note": "Everything except 'calling Close again is harmless', which is false: it panics in every state (C14_close_twice_refuted)."
  },
  {
   "property": "C15",
   "status": "partial",
   "theorems": [
    "C15_invalid_level_refuted",
    "C15_refusal_partial"
   ],
   "note": "Refuted for invalid levels (later Flush and Close panic); all other refusals leave the writer unchanged (_partial)."
  },
  {
   "property": "C16",
   "status": "proved",
   "theorems": [
    "C16_transport",
    "C16_transport_zlib"
   ],
   "note": ""
  },
  {
   "property": "C17",
   "status": "proved",
   "theorems": [
    "C17_thex",
    "C17_thex_unique"
   ],
   "note": ""
  },
  {
   "property": "C18",
   "status": "proved",
   "theorems": [
    "C18_agree"
   ],
   "note": ""
  },
  {
   "property": "C19",
   "status": "partial",
   "theorems": [
    "C19_chunking_refuted",
    "C19_empty_read_refuted",
    "C19_content_partial"
   ],
   "note": "False as stated: read boundaries become block boundaries and an empty read ends the file (_refuted); proved for readers that fill the buffer."
  },
  {
   "property": "C20",
   "status": "partial",
   "theorems": [
    "C20_total_refuted",
    "C20_pure_partial"
   ],
   "note": "TreeHash of an empty leaf list crashes (_refuted); proved for non-empty lists."
  },
  {
   "property": "C21",
   "status": "proved",
   "theorems": [
    "C21_text",
    "C21_roundtrip",
    "C21_injective"
   ],
   "note": ""
  },
  {
   "property": "C22",
   "status": "partial",
   "theorems": [
    "C22_only_symbols_refuted",
    "C22_accepts",
    "C22_total",
    "C22_must_parse"
   ],
   "note": "After the 39 symbols a byte 0xFF and up to seven bytes are accepted too (_refuted); C22_accepts gives the exact accepted language and C22_total the absence of crashes."
  },
  {
   "property": "C23",
   "status": "partial",
   "theorems": [
    "C23_no_crash_refuted",
    "C23_crash_exactly",
    "C23_agrees_partial"
   ],
   "note": "The in-place decoder crashes on 40 or more symbols (_refuted); exactly then (C23_crash_exactly), and otherwise agrees with the other decoder."
  },
  {
   "property": "C24",
   "status": "proved",
   "theorems": [
    "C24_symbols",
    "C24_faithful",
    "C24_text"
   ],
   "note": ""
  },
  {
   "property": "C25",
   "status": "proved",
   "theorems": [
    "C25_form",
    "C25_equal",
    "C25_verify",
    "C25_file",
    "C25_certificate"
   ],
   "note": ""
  },
  {
   "property": "C26",
   "status": "proved",
   "theorems": [
    "C26_string_safe",
    "C26_name_safe"
   ],
   "note": ""
  },
  {
   "property": "C27",
   "status": "proved",
   "theorems": [
    "C27_string_roundtrip",
    "C27_string_encoding",
    "C27_legacy_refuted"
   ],
   "note": "_refuted shows that the exclusion of legacy escapes in the statement is necessary"
  },
  {
   "property": "C28",
   "status": "proved",
   "theorems": [
    "C28_name_roundtrip",
    "C28_name_encoding"
   ],
   "note": ""
  },
  {
   "property": "C29",
   "status": "proved",
   "theorems": [
    "C29_decoded_text_is_utf8"
   ],
   "note": ""
  },
  {
   "property": "C30",
   "status": "proved",
   "theorems": [
    "C30_unsigned_exact",
    "C30_unsigned_rejects"
   ],
   "note": ""
  },
  {
   "property": "C31",
   "status": "proved",
   "theorems": [
    "C31_signed_exact",
    "C31_signed_rejects"
   ],
   "note": ""
  },
  {
   "property": "C32",
   "status": "proved",
   "theorems": [
    "C32_chat",
    "C32_bracket_needed"
   ],
   "note": ""
  },
  {
   "property": "C33",
   "status": "partial",
   "theorems": [
    "C33_split_refuted",
    "C33_split_partial",
    "C33_lone_bracket"
   ],
   "note": "False as stated: '<a>bcd>' loses the byte c (_refuted); proved for lines that do not end with a second '>'."
  },
  {
   "property": "C34",
   "status": "proved",
   "theorems": [
    "C34_private",
    "C34_mcto",
    "C34_conditions_needed"
   ],
   "note": ""
  },
  {
   "property": "C35",
   "status": "proved",
   "theorems": [
    "C35_connect",
    "C35_reverse",
    "C35_source",
    "C35_suffix_needed"
   ],
   "note": ""
  },
  {
   "property": "C36",
   "status": "proved",
   "theorems": [
    "C36_myinfo",
    "C36_defaults"
   ],
   "note": ""
  },
  {
   "property": "C37",
   "status": "partial",
   "theorems": [
    "C37_flags_refuted",
    "C37_dollar_rejected",
    "C37_pipe_breaks_frame",
    "C37_flags_partial",
    "C37_is_set"
   ],
   "note": "False as stated: flag bytes '$' and '|' break the line (_refuted, for every MyINFO); proved for all other flags."
  },
  {
   "property": "C38",
   "status": "proved",
   "theorems": [
    "C38_search",
    "C38_defaults"
   ],
   "note": ""
  },
  {
   "property": "C39",
   "status": "partial",
   "theorems": [
    "C39_pattern_refuted",
    "C39_pattern_received",
    "C39_verbatim_iff"
   ],
   "note": "False as stated: '$' arrives as a space (_refuted); C39_pattern_received says exactly what arrives."
  },
  {
   "property": "C40",
   "status": "proved",
   "theorems": [
    "C40_result"
   ],
   "note": ""
  },
  {
   "property": "C41",
   "status": "partial",
   "theorems": [
    "C41_path_refuted",
    "C41_path_received",
    "C41_slots_refuted"
   ],
   "note": "False as stated: escapes in paths are not undone, slot-like names change (_refuted); C41_path_received says exactly what arrives."
  },
  {
   "property": "C42",
   "status": "proved",
   "theorems": [
    "C42_active",
    "C42_passive"
   ],
   "note": ""
  },
  {
   "property": "C43",
   "status": "proved",
   "theorems": [
    "C43_get",
    "C43_send",
    "C43_direction"
   ],
   "note": ""
  },
  {
   "property": "C44",
   "status": "partial",
   "theorems": [
    "C44_length_refuted",
    "C44_length"
   ],
   "note": "False as stated: lengths of 2^63 and more arrive negative, 2^64-1 as -1 (_refuted); C44_length is the exact result."
  },
  {
   "property": "C45",
   "status": "proved",
   "theorems": [
    "C45_hubinfo",
    "C45_text",
    "C45_supports",
    "C45_failover",
    "C45_raw_text",
    "C45_lock",
    "C45_conditions_needed"
   ],
   "note": ""
  },
  {
   "property": "C46",
   "status": "proved",
   "theorems": [
    "C46_names",
    "C46_userip",
    "C46_excluded"
   ],
   "note": ""
  },
  {
   "property": "C47",
   "status": "proved",
   "theorems": [
    "C47_command",
    "C47_path_only"
   ],
   "note": ""
  },
  {
   "property": "C48",
   "status": "proved",
   "theorems": [
    "C48_name",
    "C48_string",
    "C48_no_arguments",
    "C48_error",
    "C48_unknown",
    "C48_registry",
    "C48_registry_distinct"
   ],
   "note": ""
  },
  {
   "property": "C49",
   "status": "partial",
   "theorems": [
    "C49_frame_partial",
    "C49_frame_refuted",
    "C49_errors",
    "C49_raw_needed"
   ],
   "note": "Proved for all messages except empty chat (and nameless raw) messages, for which it is false (_refuted)."
  },
  {
   "property": "C50",
   "status": "partial",
   "theorems": [
    "C50_crash_refuted",
    "C50_crash_iff",
    "C50_payload",
    "C50_type_empty"
   ],
   "note": "False as stated: an empty chat message crashes (_refuted); C50_crash_iff: nothing else does."
  },
  {
   "property": "C51",
   "status": "partial",
   "theorems": [
    "C51_crash_refuted",
    "C51_crash",
    "C51_no_other_crash_partial",
    "C51_crash_exact"
   ],
   "note": "False as stated: a Search with a too long hash crashes (_refuted); C51_crash_exact: exactly the searches of search_crash do."
  },
  {
   "property": "C52",
   "status": "partial",
   "theorems": [
    "C52_key",
    "C52_key_unique",
    "C52_inverse_refuted",
    "C52_inverse_partial"
   ],
   "note": "Key function and absence of reserved bytes proved; recovering the lock is false in general (C52_inverse_refuted) and proved when the key bytes contain no replacement sequence."
  },
  {
   "property": "C53",
   "status": "partial",
   "theorems": [
    "C53_crash_refuted",
    "C53_crash_iff"
   ],
   "note": "False as stated: locks shorter than two bytes crash (_refuted); C53_crash_iff: exactly those."
  },
  {
   "property": "C54",
   "status": "proved",
   "theorems": [
    "C54_messages_in_order",
    "C54_unmarshal"
   ],
   "note": ""
  },
  {
   "property": "C55",
   "status": "proved",
   "theorems": [
    "C55_read_msg",
    "C55_read_msg_to",
    "C55_read_msg_any",
    "C55_unexpected_to",
    "C55_unexpected_any",
    "C55_malformed"
   ],
   "note": ""
  },
  {
   "property": "C56",
   "status": "partial",
   "theorems": [
    "C56_dropped_refuted",
    "C56_ignored_refuted",
    "C56_continues_as_read_msg_to",
    "C56_raw_hook_drops_cleanly",
    "C56_alike_partial"
   ],
   "note": "The full statement is false for ReadMsg after a message was dropped or skipped: it is decoded into a message value that may hold old state. The refuting theorem has the witness, the exact theorem says what is returned."
  },
  {
   "property": "C57",
   "status": "partial",
   "theorems": [
    "C57_wildcard_refuted",
    "C57_accepts_only_its_type_partial"
   ],
   "note": "The full statement is false (C57_wildcard_refuted): the type check after the loop refuses every command except the one named by the RawMessage's Typ, and every chat line. C57_accepts_only_its_type_partial says exactly what is accepted."
  },
  {
   "property": "C58",
   "status": "partial",
   "theorems": [
    "C58_dropped_refuted",
    "C58_written",
    "C58_all_written_partial"
   ],
   "note": "The full statement is false: a message dropped by a hook silently ends the whole call (C58_dropped_refuted). C58_written says exactly which lines any sequence of calls writes; C58_all_written_partial is the full claim for hooks that never drop and calls that report success. Hooks may change the message: the line written is the encoding of the message as the hooks left it."
  },
  {
   "property": "C59",
   "status": "proved",
   "theorems": [
    "C59_bad_message",
    "C59_first_message",
    "C59_as_if_not_attempted"
   ],
   "note": "What a failing encoder leaves in the scratch buffer is arbitrary; the message is the one the hooks left."
  },
  {
   "property": "C60",
   "status": "proved",
   "theorems": [
    "C60_end_to_end",
    "C60_compressed"
   ],
   "note": "Without compression and with one section compressed by ZOn; compressor and inflater are an arbitrary matching pair. Hooks of the writer may change messages by an arbitrary function ed; the reader then returns the changed messages (ed = identity is the property)."
  },
  {
   "property": "C61",
   "status": "proved",
   "theorems": [
    "C61_roundtrip",
    "C61_escape",
    "C61_unescape"
   ],
   "note": ""
  },
  {
   "property": "C62",
   "status": "proved",
   "theorems": [
    "C62_roundtrip",
    "C62_payload_exact",
    "C62_payload_refuted",
    "C62_typed",
    "C62_typed_to",
    "C62_decode_to_type"
   ],
   "note": "Proved for all eight kinds. C62_payload_exact: the condition on feature payloads is exact; C62_payload_refuted is a witness that it is needed. C62_typed and C62_typed_to extend it to structured messages."
  },
  {
   "property": "C63",
   "status": "partial",
   "theorems": [
    "C63_crash_refuted",
    "C63_crash_exact",
    "C63_spare_partial",
    "C63_other_partial",
    "C63_info"
   ],
   "note": "The full statement is false: an incomplete selector at the end of a feature packet panics when fewer than three bytes of capacity follow (C63_crash_refuted). C63_crash_exact says exactly when."
  },
  {
   "property": "C64",
   "status": "partial",
   "theorems": [
    "C64_newline_refuted",
    "C64_sids_partial",
    "C64_newline_exact",
    "C64_length"
   ],
   "note": "The full statement is false: a line that ends inside of the last SID is accepted with the delimiter as its last character (C64_newline_refuted). C64_newline_exact says exactly when."
  },
  {
   "property": "C65",
   "status": "proved",
   "theorems": [
    "C65_roundtrip",
    "C65_text"
   ],
   "note": ""
  },
  {
   "property": "C66",
   "status": "partial",
   "theorems": [
    "C66_too_few_refuted",
    "C66_overlong_refuted",
    "C66_crash_partial",
    "C66_crash_exact"
   ],
   "note": "The full statement is false (C66_too_few_refuted, C66_overlong_refuted). C66_crash_partial lists all causes; they are exact for RCM, GFI and PAS. For CTM, SCH and RES an error in an earlier field can come first."
  },
  {
   "property": "C67",
   "status": "partial",
   "theorems": [
    "C67_zero_refuted",
    "C67_decoded_partial",
    "C67_boolint"
   ],
   "note": "The full statement is false: \"0\" is decoded as true (C67_zero_refuted). C67_decoded_partial gives the decoded value for every text."
  },
  {
   "property": "C68",
   "status": "partial",
   "theorems": [
    "C68_fraction_refuted",
    "C68_decoded",
    "C68_rejected_partial",
    "C68_port"
   ],
   "note": "The full statement is false: texts that ParseFloat reads as a non-integral number are accepted and ignored (C68_fraction_refuted). C68_decoded and C68_port give the value for every text; C68_rejected_partial is the rejection of texts that ParseFloat refuses."
  },
  {
   "property": "C69",
   "status": "partial",
   "theorems": [
    "C69_escape_refuted",
    "C69_decoded",
    "C69_roundtrip_partial"
   ],
   "note": "The full statement is false: values are not unescaped (C69_escape_refuted). C69_roundtrip_partial is the exact condition."
  },
  {
   "property": "C70",
   "status": "proved",
   "theorems": [
    "C70_roundtrip",
    "C70_text",
    "C70_decoded",
    "C70_err",
    "C70_negative_refuted"
   ],
   "note": "Proved for severities from 0 and codes 0 to 99; C70_negative_refuted shows that negative codes do not decode. C70_decoded is exact for every text."
  },
  {
   "property": "C71",
   "status": "proved",
   "theorems": [
    "C71_roundtrip",
    "C71_reuse_refuted",
    "C71_reuse_partial"
   ],
   "note": "Proved for new requests; decoding into a reused request keeps the compression flag (C71_reuse_refuted, C71_reuse_partial)."
  },
  {
   "property": "C72",
   "status": "proved",
   "theorems": [
    "C72_roundtrip",
    "C72_set_from",
    "C72_intersect",
    "C72_commutative"
   ],
   "note": ""
  },
  {
   "property": "C73",
   "status": "partial",
   "theorems": [
    "C73_removed_refuted",
    "C73_order_refuted",
    "C73_is_set_partial",
    "C73_entries_partial"
   ],
   "note": "The full statement is false: a removed feature has an entry (C73_removed_refuted) and additions win over later removals in one message (C73_order_refuted). The partial theorems are exact."
  },
  {
   "property": "C74",
   "status": "proved",
   "theorems": [
    "C74_lines",
    "C74_written",
    "C74_end_to_end",
    "C74_compressed",
    "C74_info"
   ],
   "note": ""
  },
  {
   "property": "C75",
   "status": "proved",
   "theorems": [
    "C75_one_line"
   ],
   "note": ""
  },
  {
   "property": "C76",
   "status": "proved",
   "theorems": [
    "C76_matches",
    "C76_disjoint"
   ],
   "note": ""
  },
  {
   "property": "C77",
   "status": "partial",
   "theorems": [
    "C77_dispatch_refuted",
    "C77_dispatch_partial",
    "C77_accepted"
   ],
   "note": "The full statement is false: dc.ParseAddr tests the prefix \"adc\" of the address (C77_dispatch_refuted: \"adchub.example.com\" is refused, \"ADC://hub:1\" is refused). C77_dispatch_partial: it holds for addresses written with a scheme in lower case. C77_accepted: an accepted address is always of the right protocol."
  },
  {
   "property": "C78",
   "status": "partial",
   "theorems": [
    "C78_reuse_refuted",
    "C78_acceptance",
    "C78_reuse_partial",
    "C78_other_types"
   ],
   "note": "False as stated for ten message types (_refuted lists a case for each); proved for all other types and for zeroed fields; acceptance never depends on old contents."
  },
  {
   "property": "C79",
   "status": "proved",
   "theorems": [
    "C79_supports",
    "C79_intersect",
    "C79_intersect_list",
    "C79_clone",
    "C79_set",
    "C79_list"
   ],
   "note": ""
  },
  {
   "property": "C80",
   "status": "proved",
   "theorems": [
    "C80_normalize",
    "C80_idempotent"
   ],
   "note": ""
  },
  {
   "property": "C81",
   "status": "proved",
   "theorems": [
    "C81_no_panic"
   ],
   "note": ""
  },
  {
   "property": "C82",
   "status": "proved",
   "theorems": [
    "C82_salt",
    "C82_sid",
    "C82_sid_rejected",
    "C82_skipped_refuted"
   ],
   "note": "Proved. Beyond the claim: characters that base32 skips lengthen the salt (C82_skipped_refuted)."
  },
  {
   "property": "C83",
   "status": "proved",
   "theorems": [
    "C83_add_features",
    "C83_join",
    "C83_has"
   ],
   "note": ""
  },
  {
   "property": "C84",
   "status": "proved",
   "theorems": [
    "C84_adc",
    "C84_nmdc"
   ],
   "note": ""
  },
  {
   "property": "C85",
   "status": "proved",
   "theorems": [
    "C85_idempotent"
   ],
   "note": ""
  },
  {
   "property": "C86",
   "status": "proved",
   "theorems": [
    "C86_string",
    "C86_name",
    "C86_unescape"
   ],
   "note": ""
  },
  {
   "property": "C87",
   "status": "proved",
   "theorems": [
    "C87_chat"
   ],
   "note": ""
  },
  {
   "property": "C88",
   "status": "proved",
   "theorems": [
    "C88_private",
    "C88_mcto"
   ],
   "note": ""
  },
  {
   "property": "C89",
   "status": "proved",
   "theorems": [
    "C89_connect",
    "C89_reverse"
   ],
   "note": ""
  },
  {
   "property": "C90",
   "status": "proved",
   "theorems": [
    "C90_command"
   ],
   "note": ""
  },
  {
   "property": "C91",
   "status": "proved",
   "theorems": [
    "C91_get",
    "C91_send",
    "C91_direction"
   ],
   "note": ""
  },
  {
   "property": "C92",
   "status": "proved",
   "theorems": [
    "C92_search"
   ],
   "note": ""
  },
  {
   "property": "C93",
   "status": "proved",
   "theorems": [
    "C93_result"
   ],
   "note": ""
  },
  {
   "property": "C94",
   "status": "proved",
   "theorems": [
    "C94_active",
    "C94_passive"
   ],
   "note": ""
  },
  {
   "property": "C95",
   "status": "proved",
   "theorems": [
    "C95_myinfo",
    "C95_accepted"
   ],
   "note": ""
  },
  {
   "property": "C96",
   "status": "proved",
   "theorems": [
    "C96_names",
    "C96_userip",
    "C96_supports",
    "C96_failover"
   ],
   "note": ""
  },
  {
   "property": "C97",
   "status": "proved",
   "theorems": [
    "C97_hubinfo",
    "C97_lock",
    "C97_error"
   ],
   "note": ""
  },
  {
   "property": "C98",
   "status": "proved",
   "theorems": [
    "C98_decoded",
    "C98_accepted",
    "C98_unique",
    "C98_rejected"
   ],
   "note": ""
  },
  {
   "property": "C99",
   "status": "proved",
   "theorems": [
    "C99_new",
    "C99_calls"
   ],
   "note": ""
  },
  {
   "property": "C100",
   "status": "proved",
   "theorems": [
    "C100_layout",
    "C100_decoded",
    "C100_crash"
   ],
   "note": ""
  },
  {
   "property": "C101",
   "status": "proved",
   "theorems": [
    "C101_decoded",
    "C101_crash"
   ],
   "note": ""
  },
  {
   "property": "C102",
   "status": "proved",
   "theorems": [
    "C102_raw",
    "C102_decoded"
   ],
   "note": ""
  },
  {
   "property": "C103",
   "status": "proved",
   "theorems": [
    "C103_stream",
    "C103_unique"
   ],
   "note": ""
  },
  {
   "property": "C104",
   "status": "partial",
   "theorems": [
    "C104_callback",
    "C104_asked_refuted",
    "C104_continue_refuted"
   ],
   "note": "C104_callback: the full session. False as stated for two cases (_refuted): identifiers of ADCGET/ADCSND and user command paths are refused without asking; after a nil answer a MyINFO with a flag byte above 0x7F is still refused. After a nil answer, fields which the line may leave alone are not described."
  },
  {
   "property": "C105",
   "status": "proved",
   "theorems": [
    "C105_stream",
    "C105_unique",
    "C105_session_unique"
   ],
   "note": ""
  },
  {
   "property": "C106",
   "status": "partial",
   "theorems": [
    "C106_raw",
    "C106_raw_line",
    "C106_line_refuted",
    "C106_same_partial",
    "C106_others",
    "C106_line_partial",
    "C106_status_refuted",
    "C106_features_refuted"
   ],
   "note": "The full statement is false in three ways: a negative status code is written as no number (C106_status_refuted), names of features lose their escapes, which can break the line (C106_features_refuted), and a broadcast, direct, echo or feature packet that ends with its identifier one byte early takes the line feed as part of it and is written as two lines (C106_line_refuted). C106_same_partial and C106_line_partial are exact: they say for every decoded packet whether it comes out the same and whether it is one line. C106_raw: undecoded packets always come out the same."
  },
  {
   "property": "C107",
   "status": "proved",
   "theorems": [
    "C107_written",
    "C107_rejected",
    "C107_unique",
    "C107_frame"
   ],
   "note": "C107_written gives the payload, C107_rejected the refused values, C107_unique that there is only one payload."
  },
  {
   "property": "C108",
   "status": "proved",
   "theorems": [
    "C108_survives"
   ],
   "note": "C108_survives. Additional fields of MyINFO are a map, so their order is not compared. Hashes of 24 bytes: they are arrays of this size in the code."
  },
  {
   "property": "C109",
   "status": "proved",
   "theorems": [
    "C109_relayed",
    "C109_impersonation"
   ],
   "note": "C109_relayed is the general statement, C109_impersonation the finding: a nameless line like \"<> <admin> text\" is sent on as \"<admin> text\"."
  },
  {
   "property": "C110",
   "status": "proved",
   "theorems": [
    "C110_message",
    "C110_packet",
    "C110_line"
   ],
   "note": "C110_message, C110_packet, C110_line. Features and additional fields are listed in the order in which the map is iterated; the model takes the map as a list in that order."
  },
  {
   "property": "C111",
   "status": "proved",
   "theorems": [
    "C111_message",
    "C111_registered"
   ],
   "note": "C111_message and C111_registered. ParseFloat is a parameter which yields 64 bit integers (converts)."
  },
  {
   "property": "C112",
   "status": "proved",
   "theorems": [
    "C112_packet"
   ],
   "note": "C112_packet. The conditions on the payload speak about its text, given by C110."
  },
  {
   "property": "C113",
   "status": "proved",
   "theorems": [
    "C113_end_to_end",
    "C113_changed",
    "C113_compressed"
   ],
   "note": "C113_end_to_end and C113_compressed for sending, C113_changed for packets which do not fit."
  },
  {
   "property": "C114",
   "status": "proved",
   "theorems": [
    "C114_decoded",
    "C114_accepted",
    "C114_unique",
    "C114_fresh"
   ],
   "note": "C114_decoded and C114_accepted (up to the order of the additional fields of a tag, which is a map), C114_unique, C114_fresh. The hashes in the old message have the size of the Go array (sized), as every value of the type has."
  },
  {
   "property": "C115",
   "status": "proved",
   "theorems": [
    "C115_calls"
   ],
   "note": "C115_calls. After a failed decoding the message has the value of C123; of the error values of UnmarshalNMDC only unknown encodings are specified. Message callbacks may change the message (but not the size of a hash); callbacks that call methods of the reader are not modelled."
  },
  {
   "property": "C116",
   "status": "proved",
   "theorems": [
    "C116_settled",
    "C116_kept_refuted"
   ],
   "note": "C116_settled for decoders that only give UTF-8; C116_kept_refuted shows what happens with others: after an answer of nil, the remaining lines of the call are decoded without the decoder which is still set."
  },
  {
   "property": "C117",
   "status": "proved",
   "theorems": [
    "C117_decoded",
    "C117_crash",
    "C117_decode_to"
   ],
   "note": "C117_decoded, C117_crash, C117_decode_to for every type of message. The order of iteration of a map is not observable (same_message). Slices shared between the old and the new value are not modelled."
  },
  {
   "property": "C118",
   "status": "proved",
   "theorems": [
    "C118_failed",
    "C118_success",
    "C118_decode_to"
   ],
   "note": "C118_failed, C118_success, C118_decode_to for every type of message. unmarshal_left follows the assignments of the code; C118_success ties it to unmarshal. The target of a payload that crashes is not described."
  },
  {
   "property": "C119",
   "status": "proved",
   "theorems": [
    "C119_nmdc",
    "C119_adc"
   ],
   "note": "C119_nmdc, C119_adc: one call; the reader it leaves serves what remains (C99), so any sequence follows. Lines are within the limit of SetMaxLine (C02 and C03 speak of others); the connection delivers data without errors in each read, as in C99."
  },
  {
   "property": "C120",
   "status": "proved",
   "theorems": [
    "C120_calls",
    "C120_new",
    "C120_types",
    "C120_nmdc",
    "C120_adc",
    "C120_receive",
    "C120_receive_refuted",
    "C120_name",
    "C120_name_refuted"
   ],
   "note": "C120_calls, C120_new, C120_types, C120_nmdc, C120_adc. C120_receive says for which types UnmarshalMessage panics, C120_receive_refuted gives one; C120_name is for types whose name is constant, C120_name_refuted shows a RawMessage registered for a command, which is created without its name."
  },
  {
   "property": "C121",
   "status": "proved",
   "theorems": [
    "C121_line",
    "C121_set",
    "C121_decode"
   ],
   "note": "C121_line for lines as the reader returns them (no line feed inside), C121_set, C121_decode."
  },
  {
   "property": "C122",
   "status": "proved",
   "theorems": [
    "C122_hex",
    "C122_hex_injective",
    "C122_zero",
    "C122_cid"
   ],
   "note": "C122_hex, C122_hex_injective, C122_zero, C122_cid."
  },
  {
   "property": "C123",
   "status": "proved",
   "theorems": [
    "C123_failed",
    "C123_complete",
    "C123_unique",
    "C123_outcomes"
   ],
   "note": "C123_failed, C123_complete and C123_unique are the two directions and uniqueness up to the order of the additional MyINFO fields; C123_outcomes says that exactly one of the three outcomes applies. Hypothesis: hashes in the old message have 24 bytes, as the Go type says."
  },
  {
   "property": "C124",
   "status": "proved",
   "theorems": [
    "C124_reported",
    "C124_text",
    "C124_asked",
    "C124_asked_refuted"
   ],
   "note": "C124_reported is an equivalence for every message type. C124_asked_refuted and its case record that paths of user commands and identifiers of files in another encoding are refused without the report; C124_asked is the statement for all other types."
  },
  {
   "property": "C125",
   "status": "proved",
   "theorems": [
    "C125_chat",
    "C125_error",
    "C125_user_type",
    "C125_user_types"
   ],
   "note": "C125_chat, C125_error, C125_user_type and C125_user_types."
  },
  {
   "property": "C126",
   "status": "proved",
   "theorems": [
    "C126_calls",
    "C126_in_progress",
    "C126_applies_refuted"
   ],
   "note": "C126_calls and C126_in_progress; C126_applies_refuted is the finding in parentheses. SetDecoder from another goroutine is not modelled."
  },
  {
   "property": "C127",
   "status": "proved",
   "theorems": [
    "C127_line",
    "C127_hooks",
    "C127_watching",
    "C127_kept",
    "C127_next",
    "C127_stays_refuted"
   ],
   "note": "C127_line, C127_hooks, C127_watching, C127_kept, C127_next; C127_stays_refuted shows that the limit of validity is needed. What is left of a kept line is stated for readers without hooks. Hooks do not keep slices to write to them later."
  },
  {
   "property": "C128",
   "status": "partial",
   "theorems": [
    "C128_received",
    "C128_next",
    "C128_stays_refuted"
   ],
   "note": "The claim is false: C128_stays_refuted (\"bob\" becomes \"lic\"). C128_received: true until the next line is read; C128_next: what it has then (readers without line hooks)."
  },
  {
   "property": "C129",
   "status": "partial",
   "theorems": [
    "C129_payload",
    "C129_next",
    "C129_fitting",
    "C129_crash_refuted"
   ],
   "note": "The part about crashes is false: C129_crash_refuted, for every behaviour of append. C129_fitting is the true part; C129_payload and C129_next prove the rest. The decoders of the messages have crashes of their own (C105). OnKeepAlive is nil here."
  },
  {
   "property": "C130",
   "status": "proved",
   "theorems": [
    "C130_line",
    "C130_asked",
    "C130_failed",
    "C130_written",
    "C130_looking",
    "C130_twice_refuted"
   ],
   "note": "C130_line, C130_asked, C130_failed, C130_written, C130_looking; C130_twice_refuted is the case of one slice written twice. Callbacks do not keep the slice to write to it later."
  },
  {
   "property": "C131",
   "status": "proved",
   "theorems": [
    "C131_lookup",
    "C131_broken",
    "C131_keyprint",
    "C131_semicolon"
   ],
   "note": "C131_lookup, C131_broken, C131_keyprint for both versions of net/url; C131_semicolon shows where they differ. The query is RawQuery of the parsed address."
  },
  {
   "property": "C132",
   "status": "partial",
   "theorems": [
    "C132_short_refuted",
    "C132_full_partial"
   ],
   "note": "False as stated: C132_short_refuted (a short read leaves zeros and no error). C132_full_partial: what is in the array for any answer; complete for sources that fill the buffer, as crypto/rand does."
  },
  {
   "property": "C133",
   "status": "partial",
   "theorems": [
    "C133_read",
    "C133_kept_refuted",
    "C133_left",
    "C133_broken",
    "C133_crash_refuted",
    "C133_crash",
    "C133_sid",
    "C133_again"
   ],
   "note": "False as stated for the packet after a failed call: C133_kept_refuted, and for panics: C133_crash_refuted. C133_left and C133_crash: exactly when and what is left; C133_read, C133_broken, C133_again."
  },
  {
   "property": "C134",
   "status": "proved",
   "theorems": [
    "C134_line",
    "C134_package",
    "C134_failed",
    "C134_must",
    "C134_must_package",
    "C134_calls",
    "C134_without"
   ],
   "note": "C134_line, C134_package, C134_must, C134_must_package, C134_calls, C134_without. A message is Cmd and the function of its Marshal on the contents of the buffer; panics of messages are recovered by the program. C134_failed: the buffer after a failing message."
  },
  {
   "property": "C135",
   "status": "proved",
   "theorems": [
    "C135_frame",
    "C135_marshal",
    "C135_appends_refuted",
    "C135_nothing",
    "C135_package",
    "C135_calls",
    "C135_all_calls",
    "C135_failed"
   ],
   "note": "C135_frame, C135_nothing, C135_package, C135_calls and its converse C135_all_calls, C135_failed. C135_appends_refuted: without command and payload MarshalTo does not only append. Panics of messages are recovered by the program; callbacks do not panic."
  },
  {
   "property": "C136",
   "status": "proved",
   "theorems": [
    "C136_encoder",
    "C136_during",
    "C136_callback_refuted"
   ],
   "note": "C136_encoder, C136_during. C136_callback_refuted: SetEncoder in a callback does not hold for the message it was asked about."
  },
  {
   "property": "C137",
   "status": "proved",
   "theorems": [
    "C137_calls",
    "C137_return",
    "C137_untouched",
    "C137_chat",
    "C137_type_refuted",
    "C137_package",
    "C137_lawful"
   ],
   "note": "C137_calls, C137_return, C137_untouched, C137_chat, C137_package, C137_lawful. C137_type_refuted: a message with the Type of chat messages does not get chat lines unless it is a *ChatMessage. Callbacks do not panic; the messages passed to ReadMsgToAny are distinct."
  },
  {
   "property": "C138",
   "status": "proved",
   "theorems": [
    "C138_call",
    "C138_calls_refuted"
   ],
   "note": "C138_call, on streams without line callbacks; that the decoder given by OnUnknownEncoding replaces one set before is part of C137_calls. C138_calls_refuted: the decoder set in a callback holds for the next call."
  },
  {
   "property": "C139",
   "status": "proved",
   "theorems": [
    "C139_decoded",
    "C139_typed",
    "C139_argument",
    "C139_truncated_refuted",
    "C139_package"
   ],
   "note": "C139_decoded, C139_typed, C139_argument, C139_package. C139_truncated_refuted: a field of 16 bits accepts 70000 and holds 4464. Fields of interface types are not modelled; structures, arrays, maps and floats are values without further structure."
  },
  {
   "property": "C140",
   "status": "proved",
   "theorems": [
    "C140_encoded",
    "C140_argument",
    "C140_message",
    "C140_package",
    "C140_panic_refuted",
    "C140_no_panic"
   ],
   "note": "C140_encoded, C140_argument, C140_message, C140_package, C140_no_panic. C140_panic_refuted: a map field without req makes Marshal panic."
  },
  {
   "property": "C141",
   "status": "proved",
   "theorems": [
    "C141_roundtrip",
    "C141_string",
    "C141_number",
    "C141_flag",
    "C141_unsigned",
    "C141_nil",
    "C141_pointer",
    "C141_own",
    "C141_flag_refuted",
    "C141_unsigned_refuted",
    "C141_pointer_refuted",
    "C141_list_refuted",
    "C141_tag_refuted",
    "C141_names_refuted",
    "C141_packet"
   ],
   "note": "C141_roundtrip and C141_packet, with C141_string, _number, _flag, _unsigned, _nil, _pointer, _own for the values that can be carried. C141_*_refuted: single fields that do not arrive although Marshal succeeds."
  },
  {
   "property": "C142",
   "status": "proved",
   "theorems": [
    "C142_calls",
    "C142_stream",
    "C142_unique",
    "C142_later",
    "C142_again",
    "C142_to",
    "C142_package",
    "C142_structure"
   ],
   "note": "C142_calls for every reader, C142_stream and C142_unique on streams, C142_later, C142_again, C142_to for packets already read, C142_package, C142_structure. Callbacks do not panic and do not call the reader; Cmd has no effects."
  },
  {
   "property": "C143",
   "status": "proved",
   "theorems": [
    "C143_line",
    "C143_happens",
    "C143_unique",
    "C143_plain",
    "C143_zon",
    "C143_zon_anywhere",
    "C143_close",
    "C143_no_panic_refuted",
    "C143_panic"
   ],
   "note": "C143_line and C143_happens (both directions), C143_unique, C143_plain (callbacks without calls: LineReader), C143_zon and C143_zon_anywhere, C143_close, C143_panic. C143_no_panic_refuted: a callback that closes the reader and drops the line makes ReadLine panic, so the property lists this case. ReadLine called by a callback is not modelled."
  },
  {
   "property": "C144",
   "status": "proved",
   "theorems": [
    "C144_calls",
    "C144_zon",
    "C144_zon_anywhere",
    "C144_plain",
    "C144_package"
   ],
   "note": "C144_calls for all callbacks and messages, C144_zon and C144_zon_anywhere for a program that handles $ZOn, C144_plain (nothing uses the line reader: C137), C144_package (the messages of the package meet the hypotheses). Simplifications as in C137 and C143."
  },
  {
   "property": "C145",
   "status": "proved",
   "theorems": [
    "C145_calls",
    "C145_happens",
    "C145_plain",
    "C145_zon",
    "C145_zon_anywhere",
    "C145_close"
   ],
   "note": "C145_calls and C145_happens for all callbacks and messages, C145_plain (nothing uses the line reader: C142), C145_zon and C145_zon_anywhere for a line callback that handles IZON, C145_close. Simplifications as in C142 and C143."
  },
  {
   "property": "C146",
   "status": "proved",
   "theorems": [
    "C146_line",
    "C146_once",
    "C146_plain",
    "C146_script",
    "C146_insert",
    "C146_recursion",
    "C146_sticky",
    "C146_close",
    "C146_unnoticed_refuted",
    "C146_noticed"
   ],
   "note": "C146_line and C146_once for all callbacks; C146_plain (callbacks that call nothing), C146_script (any calls in a callback), C146_insert (lines before each line), C146_recursion, C146_sticky, C146_noticed, C146_close. C146_unnoticed_refuted: nil from WriteLine does not imply nil from Err, if a call in a callback fails and the callback passes the line. A panic ends the program in the model; Timeout does not call the writer."
  },
  {
   "property": "C147",
   "status": "proved",
   "theorems": [
    "C147_message",
    "C147_line_refuted",
    "C147_line",
    "C147_smeared",
    "C147_unsmeared",
    "C147_calm",
    "C147_calm_line",
    "C147_failed",
    "C147_recursion",
    "C147_nmdc",
    "C147_adc"
   ],
   "note": "C147_message (message callbacks), C147_line (line callbacks; the line is what smear of SpecMsgReentry.v says, for the room of its array), C147_smeared, C147_unsmeared, C147_calm (line callbacks that write no messages), C147_calm_line (then a line has the effect of C146), C147_failed (a message that cannot be encoded), C147_recursion, C147_nmdc and C147_adc (the encoders). C147_line_refuted: the line a line callback passes is not the message it has been given, if it writes others. Growth of the buffer is a parameter; bytes.Buffer is taken to write at its beginning after Reset and to move to a new array only when there is no room."
  },
  {
   "property": "C148",
   "status": "proved",
   "theorems": [
    "C148_plain",
    "C148_kept_refuted",
    "C148_line",
    "C148_new",
    "C148_fails",
    "C148_state"
   ],
   "note": "C148_line (further lines read in the callback), C148_new (a new reader), C148_fails (the input ends), C148_state (the state of the callbacks of the call in the callback), C148_plain (callbacks of C143). C148_kept_refuted: the line passed on is not the line the callback was given."
  },
  {
   "property": "C149",
   "status": "proved",
   "theorems": [
    "C149_plain",
    "C149_script",
    "C149_autoflush",
    "C149_sticky",
    "C149_recursion",
    "C149_endless",
    "C149_nil",
    "C149_swap",
    "C149_order_refuted",
    "C149_write",
    "C149_call"
   ],
   "note": "C149_call (any callback and any method: the model does exactly what the rules tell, once), C149_script (any calls of the callback, WriteLine and Flush), C149_write (Write), C149_autoflush, C149_sticky, C149_recursion and C149_endless (never return), C149_nil and C149_swap (Timeout assigned), C149_plain (callbacks that call nothing). C149_order_refuted: after Write a line written by the callback may be left in the buffer."
  },
  {
   "property": "C150",
   "status": "proved",
   "theorems": [
    "C150_call",
    "C150_plain",
    "C150_lines",
    "C150_sticky",
    "C150_recursion"
   ],
   "note": "C150_call (any callbacks and any method: the model does exactly what the rules tell, once), C150_plain (line callbacks that call nothing: C149), C150_lines (no Timeout callback: C146), C150_sticky, C150_recursion (callbacks that call each other never return)."
  }
 ]
}