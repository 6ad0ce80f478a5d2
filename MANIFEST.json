{
 "claims": [
  {
   "property": "C01",
   "status": "proved",
   "theorems": [
    "C01_unpack_pack"
   ],
   "note": ""
  },
  {
   "property": "C02",
   "status": "proved",
   "theorems": [
    "C02_pack_bits",
    "C02_pack_length",
    "C02_pack_empty",
    "C02_unpack_bits",
    "C02_unpack_length"
   ],
   "note": ""
  },
  {
   "property": "C03",
   "status": "partial",
   "theorems": [
    "C03_ussd_roundtrip_refuted",
    "C03_ussd_roundtrip_partial"
   ],
   "note": "The full claim is false of the code (refuted: \"04\" loses its last digit). Proved: the exact set of strings that survive, for every number of fill bits."
  },
  {
   "property": "C04",
   "status": "proved",
   "theorems": [
    "C04_semioctet_roundtrip",
    "C04_semioctet_invalid",
    "C04_semioctet_decode_safe",
    "C04_semioctet_decode_exact"
   ],
   "note": ""
  },
  {
   "property": "C05",
   "status": "proved",
   "theorems": [
    "C05_bcd_encode",
    "C05_bcd_decode_encode",
    "C05_bcd_decode",
    "C05_bcd_encode_decode",
    "C05_bcd_encode_signed",
    "C05_bcd_decode_encode_signed",
    "C05_bcd_decode_signed",
    "C05_bcd_encode_decode_signed"
   ],
   "note": ""
  },
  {
   "property": "C06",
   "status": "partial",
   "theorems": [
    "C06_gsm7_roundtrip_refuted",
    "C06_gsm7_roundtrip_partial",
    "C06_gsm7_roundtrip_iff"
   ],
   "note": "The full claim is false for messages containing U+001B (refuted). Proved: exactly the other accepted messages survive, for every pair of tables."
  },
  {
   "property": "C07",
   "status": "proved",
   "theorems": [
    "C07_decode_total",
    "C07_decode_valid",
    "C07_no_escape",
    "C07_decode_strict"
   ],
   "note": ""
  },
  {
   "property": "C08",
   "status": "proved",
   "theorems": [
    "C08_locking_inverse",
    "C08_locking_complete",
    "C08_shift_inverse",
    "C08_shift_complete",
    "C08_least_code",
    "C08_order_independent",
    "C08_tables_are_maps"
   ],
   "note": ""
  },
  {
   "property": "C09",
   "status": "proved",
   "theorems": [
    "C09_ucs2_encode",
    "C09_ucs2_decode",
    "C09_ucs2_reencode",
    "C09_decodes_to_scalars",
    "C09_runes_exactly",
    "C09_octets_exactly"
   ],
   "note": ""
  },
  {
   "property": "C10",
   "status": "proved",
   "theorems": [
    "C10_ucs2_errors",
    "C10_ucs2_dangling"
   ],
   "note": ""
  },
  {
   "property": "C11",
   "status": "partial",
   "theorems": [
    "C11_user_data_roundtrip_refuted",
    "C11_user_data_roundtrip_partial",
    "C11_user_data_roundtrip_iff"
   ],
   "note": "False for GSM7 messages containing U+001B (refuted). Proved: exactly the other valid UTF-8 messages survive."
  },
  {
   "property": "C12",
   "status": "proved",
   "theorems": [
    "C12_alphabet_selection",
    "C12_choice_registered"
   ],
   "note": ""
  },
  {
   "property": "C13",
   "status": "proved",
   "theorems": [
    "C13_segmentation_lossless"
   ],
   "note": ""
  },
  {
   "property": "C14",
   "status": "partial",
   "theorems": [
    "C14_units_whole_refuted",
    "C14_gsm7_whole_partial",
    "C14_gsm7_text_partial",
    "C14_ucs2_whole",
    "C14_gsm7_exactly",
    "C14_ucs2_exactly"
   ],
   "note": "False at a boundary inside a run of escapes (ESC ESC ESC) which only U+001B in the text produces (refuted). Proved for all other texts and for surrogates, and that the segments are whole exactly if the message is (C14_gsm7_exactly, C14_ucs2_exactly)."
  },
  {
   "property": "C15",
   "status": "proved",
   "theorems": [
    "C15_optimal_gsm7",
    "C15_optimal_ucs2",
    "C15_optimal_8bit",
    "C15_block_size_maximal"
   ],
   "note": ""
  },
  {
   "property": "C16",
   "status": "partial",
   "theorems": [
    "C16_concat_info_refuted",
    "C16_concat_info_partial",
    "C16_complete_partial",
    "C16_concat_info_wraps",
    "C16_complete_iff"
   ],
   "note": "False for more than 255 segments, where the count wraps (refuted). Proved for up to 255 segments, and exactly, modulo 256, for any number."
  },
  {
   "property": "C17",
   "status": "proved",
   "theorems": [
    "C17_template_inherited"
   ],
   "note": ""
  },
  {
   "property": "C18",
   "status": "proved",
   "theorems": [
    "C18_fits"
   ],
   "note": ""
  },
  {
   "property": "C19",
   "status": "partial",
   "theorems": [
    "C19_always_returns_refuted",
    "C19_returns_iff_room_partial",
    "C19_returns_partial"
   ],
   "note": "False if the template header leaves no room for a character: Segment does not terminate (refuted). Proved whenever at least one character fits."
  },
  {
   "property": "C20",
   "status": "proved",
   "theorems": [
    "C20_numeric_roundtrip",
    "C20_unmarshal_safe",
    "C20_overlong_wraps",
    "C20_numeric_exactly"
   ],
   "note": ""
  },
  {
   "property": "C21",
   "status": "partial",
   "theorems": [
    "C21_alphanumeric_roundtrip_refuted",
    "C21_alphanumeric_roundtrip_partial",
    "C21_alphanumeric_roundtrip_iff",
    "C21_overlong_wraps"
   ],
   "note": "False for alphanumeric addresses containing U+001B (refuted). Proved: exactly the other texts survive."
  },
  {
   "property": "C22",
   "status": "proved",
   "theorems": [
    "C22_pdu_roundtrip",
    "C22_pdu_roundtrip_hex",
    "C22_pdu_no_smsc",
    "C22_pdu_unmarshal_safe",
    "C22_pdu_unmarshal_hex_safe",
    "C22_overlong_wraps",
    "C22_pdu_exactly"
   ],
   "note": ""
  },
  {
   "property": "C23",
   "status": "proved",
   "theorems": [
    "C23_timestamp_exactly",
    "C23_timestamp_roundtrip",
    "C23_timestamp_octets",
    "C23_timestamp_reencode",
    "C23_timestamp_safe"
   ],
   "note": ""
  },
  {
   "property": "C24",
   "status": "partial",
   "theorems": [
    "C24_largest_refuted",
    "C24_octet_zero_refuted",
    "C24_largest_partial",
    "C24_short",
    "C24_decode",
    "C24_octet_partial",
    "C24_monotone",
    "C24_negative_wraps"
   ],
   "note": "False between 5 and 10 minutes and for octet 0 (refuted). Proved from 10 minutes up, below 5 minutes and for octets 1 to 255; monotone for all non-negative durations."
  },
  {
   "property": "C25",
   "status": "partial",
   "theorems": [
    "C25_roundtrip_refuted",
    "C25_roundtrip_partial",
    "C25_enhanced_accepted_iff",
    "C25_reserved_not_written",
    "C25_unmarshal_safe"
   ],
   "note": "False for a relative period of 5 minutes (refuted, same defect as C24). Proved for every other representable value of every format."
  },
  {
   "property": "C26",
   "status": "partial",
   "theorems": [
    "C26_marshal_layout",
    "C26_roundtrip",
    "C26_unmarshal_safe",
    "C26_accepted_exact_refuted",
    "C26_accepted_partial",
    "C26_accepted_reencode"
   ],
   "note": "Round trip and safety proved in full. That an accepted header accounts for exactly its declared length is false: the data of the last element may run past it (refuted). Proved: exactly what is accepted, with that overhang as the only excess."
  },
  {
   "property": "C27",
   "status": "proved",
   "theorems": [
    "C27_layout",
    "C27_roundtrip",
    "C27_indicator_without_header"
   ],
   "note": ""
  },
  {
   "property": "C28",
   "status": "partial",
   "theorems": [
    "C28_submit_exactly",
    "C28_deliver_exactly",
    "C28_submit_roundtrip_partial",
    "C28_deliver_roundtrip",
    "C28_submit_layout",
    "C28_deliver_layout",
    "C28_submit_roundtrip_refuted"
   ],
   "note": "DELIVER proved in full. SUBMIT fails for the relative validity period of 5 minutes (refuted, the C24 defect); proved for every other well-formed TPDU, and that these are all the TPDUs that come back (C28_submit_exactly, C28_deliver_exactly)."
  },
  {
   "property": "C29",
   "status": "partial",
   "theorems": [
    "C29_deliver_report_exactly",
    "C29_submit_report_exactly",
    "C29_status_report_exactly",
    "C29_command_exactly",
    "C29_deliver_report_partial",
    "C29_submit_report_partial",
    "C29_status_report",
    "C29_command_partial",
    "C29_deliver_report_refuted",
    "C29_submit_report_refuted",
    "C29_command_refuted",
    "C29_deliver_report_layout",
    "C29_submit_report_layout",
    "C29_status_report_layout",
    "C29_command_layout"
   ],
   "note": "STATUS-REPORT proved in full. False for delivery and submit reports with FCS = 0 and for commands with a header (all refuted). Proved for every other well-formed TPDU, and that these are all the TPDUs that come back (C29_*_exactly)."
  },
  {
   "property": "C30",
   "status": "proved",
   "theorems": [
    "C30_unmarshal_safe",
    "C30_sms_unmarshal_safe",
    "C30_type_announced"
   ],
   "note": ""
  },
  {
   "property": "C31",
   "status": "partial",
   "theorems": [
    "C31_length",
    "C31_no_extension",
    "C31_no_prefix_refuted",
    "C31_no_prefix_partial",
    "C31_status_report_prefix"
   ],
   "note": "Extensions: proved in full. Prefixes: false for status reports, which may end after the status octet (refuted); proved for all other types, with the exact exception."
  },
  {
   "property": "C32",
   "status": "partial",
   "theorems": [
    "C32_alphabet_meaning",
    "C32_class_meaning",
    "C32_compressed_meaning",
    "C32_reserved_refuted",
    "C32_with_alphabet_partial",
    "C32_with_class_partial",
    "C32_alphabet_exactly",
    "C32_class_exactly"
   ],
   "note": "False for the constants AlphaReserved and MClassUnknown, which the setters accept in the general group (refuted). Proved for the three alphabets and four classes over every octet, and that these are all the integers that are read back (C32_alphabet_exactly, C32_class_exactly)."
  },
  {
   "property": "C33",
   "status": "proved",
   "theorems": [
    "C33_getters",
    "C33_set_sms_type",
    "C33_set_vp",
    "C33_set_dcs",
    "C33_set_pid",
    "C33_set_ud",
    "C33_set_udh",
    "C33_with_mti",
    "C33_with_vpf",
    "C33_spill"
   ],
   "note": ""
  },
  {
   "property": "C34",
   "status": "proved",
   "theorems": [
    "C34_any_order"
   ],
   "note": ""
  },
  {
   "property": "C35",
   "status": "proved",
   "theorems": [
    "C35_result",
    "C35_expired",
    "C35_expired_apart",
    "C35_one_message"
   ],
   "note": ""
  },
  {
   "property": "C36",
   "status": "proved",
   "theorems": [
    "C36_conservation",
    "C36_no_handler",
    "C36_once"
   ],
   "note": ""
  },
  {
   "property": "C37",
   "status": "partial",
   "theorems": [
    "C37_refuted",
    "C37_rejected_partial",
    "C37_supported",
    "C37_exactly"
   ],
   "note": "False for TPDUs that are neither SUBMIT nor DELIVER: the error is returned and the segment stored (refuted). Proved for every other error in every state, with the exact condition for rejection."
  },
  {
   "property": "C38",
   "status": "partial",
   "theorems": [
    "C38_handler_once",
    "C38_pipe_removed",
    "C38_fresh_refuted",
    "C38_fresh_partial",
    "C38_duplicate",
    "C38_complete_never_expires"
   ],
   "note": "A segment that arrives while expiry is pending is rejected as a duplicate if the expiring pipe has that number (refuted, and always so: C38_duplicate); otherwise it starts afresh (proved). The rest is proved for every history."
  },
  {
   "property": "C39",
   "status": "proved",
   "theorems": [
    "C39_closed",
    "C39_close_keeps"
   ],
   "note": ""
  },
  {
   "property": "C40",
   "status": "partial",
   "theorems": [
    "C40_refuted",
    "C40_no_panic_partial",
    "C40_exactly"
   ],
   "note": "False if multi-part TPDUs that are neither SUBMIT nor DELIVER are collected (refuted: index out of range). Proved for everything else, whatever was collected before."
  },
  {
   "property": "C41",
   "status": "partial",
   "theorems": [
    "C41_end_to_end_partial",
    "C41_fields_partial",
    "C41_text_to_number_partial",
    "C41_end_to_end_refuted",
    "C41_long_cut",
    "C41_escape_lost",
    "C41_in_time_partial"
   ],
   "note": "False for U+001B coded in septets, which never arrives (refuted for every such text), and for more than 256 TPDUs, of which the Collector takes the first few for the whole (C41_long_cut). Proved for every other message and template, decoding for any number of TPDUs, reassembly for up to 255, for any arrival order and any other traffic on the Collector, as long as no timer of the message fires; which is so if timers are not early and each TPDU comes less than the timeout after the one before (C41_in_time_partial)."
  },
  {
   "property": "C42",
   "status": "proved",
   "theorems": [
    "C42_split_insensitive",
    "C42_text",
    "C42_dangling"
   ],
   "note": ""
  },
  {
   "property": "C43",
   "status": "proved",
   "theorems": [
    "C43_references",
    "C43_distinct"
   ],
   "note": ""
  },
  {
   "property": "C44",
   "status": "proved",
   "theorems": [
    "C44_is_complete_message",
    "C44_concat_info"
   ],
   "note": ""
  },
  {
   "property": "C45",
   "status": "proved",
   "theorems": [
    "C45_conflict",
    "C45_honoured"
   ],
   "note": ""
  },
  {
   "property": "C46",
   "status": "proved",
   "theorems": [
    "C46_error_located"
   ],
   "note": ""
  },
  {
   "property": "C47",
   "status": "proved",
   "theorems": [
    "C47_number",
    "C47_plus_irrelevant",
    "C47_set_number",
    "C47_to_from",
    "C47_new",
    "C47_new_number"
   ],
   "note": ""
  },
  {
   "property": "C48",
   "status": "partial",
   "theorems": [
    "C48_refuted",
    "C48_only_filled_partial",
    "C48_result_fixed",
    "C48_race_refuted"
   ],
   "note": "False: the slices share their arrays with the pipes (refuted), and Collect in another goroutine writes to them while the caller may read (C48_race_refuted). Proved: only nil entries can change, and the slices returned by Collect never do."
  },
  {
   "property": "C49",
   "status": "partial",
   "theorems": [
    "C49_template_header_refuted",
    "C49_template_header_partial"
   ],
   "note": "False: a national language header replaces the template's (refuted). Proved: otherwise the template's header comes first in every TPDU, followed at most by the concatenation element."
  },
  {
   "property": "C50",
   "status": "proved",
   "theorems": [
    "C50_counts",
    "C50_empty"
   ],
   "note": ""
  },
  {
   "property": "C51",
   "status": "proved",
   "theorems": [
    "C51_smsdecode_safe",
    "C51_smsdecode_shows"
   ],
   "note": ""
  },
  {
   "property": "C52",
   "status": "partial",
   "theorems": [
    "C52_smsdeliver_partial",
    "C52_arguments",
    "C52_smsdeliver_refuted"
   ],
   "note": "False for U+001B in septets (refuted). Proved for everything C41_end_to_end_partial covers (no U+001B in septets, at most 255 TPDUs)."
  },
  {
   "property": "C53",
   "status": "partial",
   "theorems": [
    "C53_no_crash_refuted",
    "C53_no_crash_partial",
    "C53_exactly"
   ],
   "note": "False: parts of reports crash the Collector (refuted). Proved for every list of arguments without those, and C53_exactly says for which lists it crashes, by the program of SpecDeliver (C84)."
  },
  {
   "property": "C54",
   "status": "partial",
   "theorems": [
    "C54_smssubmit_partial",
    "C54_smssubmit_refuted"
   ],
   "note": "False for U+001B in septets (refuted). Proved for every other text of any length."
  },
  {
   "property": "C55",
   "status": "proved",
   "theorems": [
    "C55_ie",
    "C55_ie_none",
    "C55_ies",
    "C55_concat_info",
    "C55_concat_info8",
    "C55_concat_info16",
    "C55_tpdu"
   ],
   "note": ""
  },
  {
   "property": "C56",
   "status": "proved",
   "theorems": [
    "C56_unmarshal_sound"
   ],
   "note": ""
  },
  {
   "property": "C57",
   "status": "partial",
   "theorems": [
    "C57_reencode_partial",
    "C57_exactly",
    "C57_reencode_refuted"
   ],
   "note": "False: a relative validity period of octet 0, hh:mm:ss of 100 hours or more, an announced but empty header before a message, a header that runs over too far, a COMMAND with a header, a report with cause 0, dates before 1970 or after 2069 and reserved data codings without user data do not survive. Proved: exactly the other accepted TPDUs do, and no TPDU that is not accepted (C57_exactly)."
  },
  {
   "property": "C58",
   "status": "partial",
   "theorems": [
    "C58_memory_partial",
    "C58_template",
    "C58_memory_refuted"
   ],
   "note": "False for a slice that includes the element just behind the template's header in the same array: a placeholder is written there (refuted). Proved for every other slice, and in full for the template itself; octets are never written."
  },
  {
   "property": "C59",
   "status": "partial",
   "theorems": [
    "C59_values",
    "C59_headers",
    "C59_messages_partial",
    "C59_messages_refuted"
   ],
   "note": "Headers proved in full. Appending to the user data of one TPDU overwrites the next one's, whose octets are its spare capacity (refuted). Assigning within the user data proved safe."
  },
  {
   "property": "C60",
   "status": "partial",
   "theorems": [
    "C60_concurrent_partial",
    "C60_sequential",
    "C60_alone",
    "C60_concurrent_refuted"
   ],
   "note": "False if the Encoder's option slice has spare capacity and two calls bring character set options (refuted). Proved for all schedules otherwise, and for calls one after another always."
  },
  {
   "property": "C61",
   "status": "partial",
   "theorems": [
    "C61_latin",
    "C61_latin_extension",
    "C61_script_partial",
    "C61_script_extension",
    "C61_order",
    "C61_letters_partial",
    "C61_letters_extension",
    "C61_whole_script",
    "C61_script_refuted",
    "C61_signs_refused"
   ],
   "note": "False for Hindi: codes 0 to 2 are Bengali signs, so the Devanagari ones cannot be sent (refuted). Proved for everything else, with a line feed at code 0x0D of the extension tables in Latin script. The letters of the ten other scripts are specified one by one: the nine of India by the layout they share over their parallel Unicode blocks, Urdu written out."
  },
  {
   "property": "C62",
   "status": "proved",
   "theorems": [
    "C62_decoder",
    "C62_encoder",
    "C62_order",
    "C62_roundtrip",
    "C62_custom",
    "C62_methods",
    "C62_encoder_methods"
   ],
   "note": ""
  },
  {
   "property": "C63",
   "status": "partial",
   "theorems": [
    "C63_tables_partial",
    "C63_read_only",
    "C63_returns",
    "C63_tables_refuted",
    "C63_race_refuted",
    "C63_warm"
   ],
   "note": "False if a caller assigns in a map it was given: the maps are shared (refuted). Proved if nobody assigns in a map of the same language. Steps are atomic, which the Go memory model does not promise here: the first calls for a table race (C63_race_refuted); there is no race once the tables have been asked for (C63_warm)."
  },
  {
   "property": "C64",
   "status": "partial",
   "theorems": [
    "C64_deliver",
    "C64_submit",
    "C64_command",
    "C64_reports_partial",
    "C64_reports_influence",
    "C64_marshal_partial",
    "C64_empty_refuted",
    "C64_coding_refuted",
    "C64_indicator_refuted"
   ],
   "note": "False as stated: empty user data keeps the old text, a report without data coding is read in the old coding, a status report without parameter indicator keeps the old one (all refuted). Proved exactly for DELIVER, SUBMIT and COMMAND, errors included, and for reports that carry their coding and indicator."
  },
  {
   "property": "C65",
   "status": "proved",
   "theorems": [
    "C65_linearizable",
    "C65_exclusive",
    "C65_returns",
    "C65_no_deadlock",
    "C65_handler_unlocked",
    "C65_handler_stable",
    "C65_nothing_twice",
    "C65_any_order",
    "C65_writes",
    "C65_no_race",
    "C65_result_unwritten"
   ],
   "note": "Steps are atomic and interleave, as the Go memory model promises for programs without data races; C65_no_race and C65_writes show that the Collector is one. C65_result_unwritten: the slice a Collect returns is never written again. Reading what Pipes returned after Collect goes on is a race of the caller's; see C48."
  },
  {
   "property": "C66",
   "status": "partial",
   "theorems": [
    "C66_longest_refuted",
    "C66_longest_partial",
    "C66_float_exact",
    "C66_float_inexact"
   ],
   "note": "False for 100 hours and more in hh:mm:ss, for negative durations in seconds, and for five to ten minutes in the relative format (refuted). Proved for all others, through a model of the float64 arithmetic of Duration.Hours, Minutes and Seconds, which is exact below 4096 hours."
  },
  {
   "property": "C67",
   "status": "proved",
   "theorems": [
    "C67_outcome",
    "C67_up_to_the_error",
    "C67_no_type",
    "C67_failed_field_lost"
   ],
   "note": "The four exceptions are part of the statement (failed_field in SpecLeft.v) and shown to happen by C67_failed_field_lost. The model keeping the receiver is tied to the one used elsewhere by C67_outcome, and agrees with all 60 rows of the project's own test, leftovers included (Vectors.v)."
  },
  {
   "property": "C68",
   "status": "proved",
   "theorems": [
    "C68_dump_shows",
    "C68_prints_or_fails",
    "C68_output_shows",
    "C68_same_text",
    "C68_address_type_not_shown",
    "C68_command_header_not_shown",
    "C68_forged_line"
   ],
   "note": "What is not shown is not in same_shown (SpecPrint.v): the type of an address other than international, reserved bits, the header of a COMMAND (C68_address_type_not_shown, C68_command_header_not_shown). A dump as a whole is unambiguous, a single line of it is not: a line feed in an address can forge one (C68_forged_line). The dumps in the README are examples."
  },
  {
   "property": "C69",
   "status": "proved",
   "theorems": [
    "C69_text_says",
    "C69_text_tells",
    "C69_unmarshal_errors",
    "C69_pdumode_errors",
    "C69_marshal_errors",
    "C69_decode_errors",
    "C69_collect_errors"
   ],
   "note": "proper_error (SpecErrorText.v) says what any error of the library is: names of letters, digits and dots, octets, characters. Encode fails only with ErrDcsConflict, see C43. DecodeError and EncodeError have no Unwrap method, so errors.Is and errors.As do not see the cause; the statement is about the Err field and the text."
  },
  {
   "property": "C70",
   "status": "partial",
   "theorems": [
    "C70_charset_grid",
    "C70_charset_tells",
    "C70_charsets_prints",
    "C70_submit_tells",
    "C70_counter_tells",
    "C70_deliver_tells_partial",
    "C70_deliver_tells_refuted"
   ],
   "note": "For smsdeliver false of messages with a line feed (C70_deliver_tells_refuted); proved without, and for numbers without a colon. For smssubmit the messages are those of C54."
  },
  {
   "property": "C71",
   "status": "proved",
   "theorems": [
    "C71_dump_says",
    "C71_output_says"
   ],
   "note": ""
  },
  {
   "property": "C72",
   "status": "partial",
   "theorems": [
    "C72_reads_partial",
    "C72_tpdus_kept",
    "C72_pieces_of_message",
    "C72_segmented",
    "C72_refuted"
   ],
   "note": "False: a surrogate pair split between two TPDUs is put together by appending to a slice of the first one's user data, which overwrites what lies behind it in its array; if that is another TPDU's user data, the text is wrong and that TPDU changed (refuted). Proved if what lies behind belongs to no other TPDU, up to the elements behind the user data, and in full for consecutive pieces of one message, as Segment makes them."
  },
  {
   "property": "C73",
   "status": "partial",
   "theorems": [
    "C73_result",
    "C73_caller_kept",
    "C73_own_memory",
    "C73_buffer_reused",
    "C73_then_decode",
    "C73_pdu_is_buffer",
    "C73_pdu_refuted",
    "C73_pdu_then_tpdu"
   ],
   "note": "Proved for Unmarshal in full. False for PDUs of a modem, whose TPDU field is the end of the buffer (C73_pdu_refuted, and exactly that: C73_pdu_is_buffer); reading the TPDU from it at once is proved safe."
  },
  {
   "property": "C74",
   "status": "proved",
   "theorems": [
    "C74_accepts",
    "C74_one_meaning",
    "C74_refuses",
    "C74_address",
    "C74_timestamp",
    "C74_validity",
    "C74_header",
    "C74_written"
   ],
   "note": "The grammar (SpecWire.v) includes what the code accepts beyond TS 23.040: months and days that are too large are carried over, the last element of a header may run over into the message, octets behind user data of length 0 and behind a report without user data are ignored, and there may be one more septet if it is 0."
  },
  {
   "property": "C75",
   "status": "proved",
   "theorems": [
    "C75_named",
    "C75_as_alphabet",
    "C75_as_type",
    "C75_new",
    "C75_new_typed",
    "C75_template",
    "C75_starts_from_one",
    "C75_encoded",
    "C75_encode_to",
    "C75_empty"
   ],
   "note": "Message type indicators given as an option are 0 to 3 (proper_opt), first octets and codings of templates are octets. The header an option gives is put in the TPDU without the indicator that there is one; see the findings. The coding of the TPDUs is the subject of C45, their headers of C17 and C49."
  },
  {
   "property": "C76",
   "status": "proved",
   "theorems": [
    "C76_alone",
    "C76_no_interference",
    "C76_view_untimed",
    "C76_repeated"
   ],
   "note": "For any history of TPDUs whose fields are in range (typed_event), parts of other types among them. The events are the steps of Collector.v; C65 shows that goroutines sharing a Collector see such a history."
  },
  {
   "property": "C77",
   "status": "proved",
   "theorems": [
    "C77_written",
    "C77_refused",
    "C77_one_outcome",
    "C77_address",
    "C77_timestamp",
    "C77_validity_period"
   ],
   "note": "User data in the 7-bit alphabet is septets (values below 128), as in C01. Hours, minutes and seconds of an enhanced period are those of Go's float64 arithmetic (GoFloat.v), which C66 shows to be exact below 4096 hours. The description includes what the code does beyond TS 23.040: lengths modulo 256, a failure cause of 0 and the parameter indicator of 0 of a status report left out, negative relative periods wrapped around."
  },
  {
   "property": "C78",
   "status": "proved",
   "theorems": [
    "C78_read",
    "C78_read_hex",
    "C78_written",
    "C78_again"
   ],
   "note": "encoding/hex is modelled (Utf.v); hex_text and hex_refused describe it independently. Lengths of addresses are written modulo 256, which C22_overlong_wraps shows to matter beyond 508 digits. The exception is shown to happen by C78_type_lost."
  },
  {
   "property": "C79",
   "status": "proved",
   "theorems": [
    "C79_error",
    "C79_readable_or_not",
    "C79_one_error",
    "C79_address",
    "C79_timestamp",
    "C79_validity_period",
    "C79_header"
   ],
   "note": "The reasons are the code's own; that data of an element may lie behind the end of its header is part of the description, as in C74. Together with C74 every outcome of Unmarshal is characterised."
  },
  {
   "property": "C80",
   "status": "proved",
   "theorems": [
    "C80_decode",
    "C80_user_data",
    "C80_one",
    "C80_errors",
    "C80_valid"
   ],
   "note": "The tables themselves are the subject of C61. That user data of a TPDU of another alphabet gets the half pair in front of it is part of the description (finding 41)."
  },
  {
   "property": "C81",
   "status": "proved",
   "theorems": [
    "C81_segment",
    "C81_one",
    "C81_rooms"
   ],
   "note": "Both directions: what is described is returned, and what is returned is described. For which templates every message is returned in this way is C19."
  },
  {
   "property": "C82",
   "status": "proved",
   "theorems": [
    "C82_encode",
    "C82_error",
    "C82_encode_function",
    "C82_one",
    "C82_characters"
   ],
   "note": "What the options ask of the template is C75, and how the text is cut is C81; for which templates every message can be cut is C19."
  },
  {
   "property": "C83",
   "status": "partial",
   "theorems": [
    "C83_address",
    "C83_timestamp",
    "C83_validity_period",
    "C83_header",
    "C83_smsc",
    "C83_pdu",
    "C83_pdu_hex",
    "C83_within_partial",
    "C83_within_refuted",
    "C83_kept_refuted"
   ],
   "note": "Characterised exactly for all octets. Not true of the code: a failed absolute validity period reports 7 octets however few there are, and a failed validity period is set to not present (C83_within_refuted, C83_kept_refuted)."
  },
  {
   "property": "C84",
   "status": "proved",
   "theorems": [
    "C84_session",
    "C84_determined",
    "C84_output",
    "C84_ends",
    "C84_left"
   ],
   "note": "The text of a message is that of Decode, which C80 describes; the reasons why a TPDU cannot be read are those of C79; the crash is C53. The flags are those of C85. That parts which are not DELIVER TPDUs share a pile is what the code does, not what a user wants (finding 44)."
  },
  {
   "property": "C85",
   "status": "partial",
   "theorems": [
    "C85_line",
    "C85_one_reading",
    "C85_flags_proper",
    "C85_values",
    "C85_smsdecode",
    "C85_smscounter",
    "C85_smssubmit",
    "C85_submit_status_refuted",
    "C85_smsdeliver"
   ],
   "note": "All of it is proved but the last sentence, which is false: smssubmit writes an empty TPDU with status 0 for a number with something that is no digit (C85_submit_status_refuted), and smsdeliver has status 0 after TPDUs it could not read. What the package flag of Go does is modelled from its documentation and source as of Go 1.15; int has 64 bits."
  },
  {
   "property": "C86",
   "status": "proved",
   "theorems": [
    "C86_pile",
    "C86_no_interference",
    "C86_view_untimed",
    "C86_returned"
   ],
   "note": "This is what the code does, not what a user wants: see C37, C40 and finding 44. TPDUs whose fields are in range (typed_event). C40_exactly says from this when Collect panics."
  },
  {
   "property": "C87",
   "status": "proved",
   "theorems": [
    "C87_given_up",
    "C87_in_time",
    "C87_no_timer",
    "C87_any_order",
    "C87_on_time",
    "C87_not_kept"
   ],
   "note": "The runtime is assumed to start a timer at the time of the call of Collect that starts it and, where said, to fire it neither early nor late. C87_in_time and C87_on_time: TPDUs whose fields are in range (typed_event)."
  },
  {
   "property": "C88",
   "status": "proved",
   "theorems": [
    "C88_names",
    "C88_distinct",
    "C88_type_parts",
    "C88_timestamp",
    "C88_timestamp_says"
   ],
   "note": "C88_type_parts: directions are 0 or 1, as the constants are."
  },
  {
   "property": "C89",
   "status": "partial",
   "theorems": [
    "C89_one",
    "C89_pack_partial",
    "C89_unpack_partial",
    "C89_empty",
    "C89_standard_refuted"
   ],
   "note": "False both ways (C89_standard_refuted). C89_pack_partial and C89_unpack_partial say exactly which strings are packed as the standard says, and what every string laid out by the standard is unpacked to; C89_one: the standard's form exists and is unique."
  },
  {
   "property": "C90",
   "status": "partial",
   "theorems": [
    "C90_stream_partial",
    "C90_readme_partial",
    "C90_type_refuted",
    "C90_broken_panics",
    "C90_no_panic_refuted",
    "C90_no_panic_partial"
   ],
   "note": "False: NewEncoder() makes DELIVERs (C90_type_refuted); octets that are no TPDU end the receiving loop, a nil pointer being dereferenced (C90_broken_panics), and so do parts of reports (C90_no_panic_refuted). Proved: the loop goes on for all other octets; for any template and any number of messages, of 1 to 255 TPDUs each and without U+001B coded in septets (see C41), the messages come out as they went in."
  },
  {
   "property": "C91",
   "status": "partial",
   "theorems": [
    "C91_senders_partial",
    "C91_interleaved_partial",
    "C91_few_partial",
    "C91_none_lost_partial",
    "C91_interleaved_refuted"
   ],
   "note": "False if a message is overtaken by the 256th after it of the same sender: of two messages one is put together that was never sent (C91_interleaved_refuted). Proved for all other schedules, and so for all schedules of up to 256 messages (C91_few_partial), for messages of 1 to 255 TPDUs as in C90."
  },
  {
   "property": "C92",
   "status": "proved",
   "theorems": [
    "C92_result",
    "C92_only_reads",
    "C92_own_memory",
    "C92_independent",
    "C92_again",
    "C92_one_by_one",
    "C92_pdu",
    "C92_to_modem"
   ],
   "note": "The octets of addresses, time stamps and validity periods are values in this model: their arrays are read once and dropped."
  },
  {
   "property": "C93",
   "status": "partial",
   "theorems": [
    "C93_only_reads",
    "C93_own_memory_partial",
    "C93_refuted"
   ],
   "note": "False of 8-bit data, which is returned as it is: changing the text changes the TPDU (C93_refuted). Proved for the other alphabets."
  },
  {
   "property": "C94",
   "status": "proved",
   "theorems": [
    "C94_afresh",
    "C94_span",
    "C94_not_mixed"
   ],
   "note": "The runtime is assumed to fire timers neither early nor late, as in C87; TPDUs whose fields are in range (typed_event). C94_afresh: until Close. This is what C91_interleaved_refuted lacks, whose Collector has no timeout."
  },
  {
   "property": "C95",
   "status": "proved",
   "theorems": [
    "C95_rounds",
    "C95_one_way",
    "C95_at_least_once",
    "C95_at_most",
    "C95_once",
    "C95_same",
    "C95_text"
   ],
   "note": "The rounds (C95_rounds, _at_least_once, _once) as long as no timer of the message fires and until Close; C95_at_most and C95_same for any timing. TPDUs whose fields are in range (typed_event). The texts of C95_text are those of C41_end_to_end_partial. A copy that comes after its message was handed out begins a round that may never end: it is then reported by the timeout handler, or stays."
  },
  {
   "property": "C96",
   "status": "partial",
   "theorems": [
    "C96_refuted",
    "C96_joined",
    "C96_apart_partial",
    "C96_expired_partial"
   ],
   "note": "False if the references are the same number (C96_refuted): half of each is put together and returned as one message. This is so of all such messages of two parts (C96_joined). Proved unless the references are the same number and the messages have as many parts. The 8-bit part has fields in range (typed)."
  },
  {
   "property": "C97",
   "status": "proved",
   "theorems": [
    "C97_call",
    "C97_numbers",
    "C97_message_references",
    "C97_concat_references",
    "C97_distinct",
    "C97_ends",
    "C97_one",
    "C97_text"
   ],
   "note": "Count is taken to be atomic, as atomic.AddInt64 is. What else the calls share, the slice of options, is the subject of C60. C97_text has the conditions of C41."
  },
  {
   "property": "C98",
   "status": "proved",
   "theorems": [
    "C98_every_text",
    "C98_in_time"
   ],
   "note": "The conditions on texts and templates are those of C41, which says what becomes of the others. More than 256 messages at a time may share reference numbers; C35 says what then becomes of them."
  },
  {
   "property": "C99",
   "status": "proved",
   "theorems": [
    "C99_only_texts",
    "C99_at_least_once",
    "C99_at_most_once_each",
    "C99_errors"
   ],
   "note": "The conditions on texts and templates are those of C41, which says what becomes of the others. More than 256 messages at a time may share reference numbers; C35 and C94 say what then becomes of them."
  },
  {
   "property": "C100",
   "status": "proved",
   "theorems": [
    "C100_last",
    "C100_untimed",
    "C100_timed",
    "C100_handler_looks_on",
    "C100_negative"
   ],
   "note": "A handler is a number, what it does is not modelled; that it runs without the lock is in C65. That a negative timeout makes reassembly impossible is the finding 53."
  }
 ]
}