# status (None = derived from the theorem names), note
NOTES = {
 "C03": ("partial", "The full claim is false of the code (refuted: \"04\" loses its last digit). Proved: the exact set of strings that survive, for every number of fill bits."),
 "C06": ("partial", "The full claim is false for messages containing U+001B (refuted). Proved: exactly the other accepted messages survive, for every pair of tables."),
 "C11": ("partial", "False for GSM7 messages containing U+001B (refuted). Proved: exactly the other valid UTF-8 messages survive."),
 "C14": ("partial", "False at a boundary inside a run of escapes (ESC ESC ESC) which only U+001B in the text produces (refuted). Proved for all other texts and for surrogates, and that the segments are whole exactly if the message is (C14_gsm7_exactly, C14_ucs2_exactly)."),
 "C16": ("partial", "False for more than 255 segments, where the count wraps (refuted). Proved for up to 255 segments, and exactly, modulo 256, for any number."),
 "C19": ("partial", "False if the template header leaves no room for a character: Segment does not terminate (refuted). Proved whenever at least one character fits."),
 "C21": ("partial", "False for alphanumeric addresses containing U+001B (refuted). Proved: exactly the other texts survive."),
 "C24": ("partial", "False between 5 and 10 minutes and for octet 0 (refuted). Proved from 10 minutes up, below 5 minutes and for octets 1 to 255; monotone for all non-negative durations."),
 "C25": ("partial", "False for a relative period of 5 minutes (refuted, same defect as C24). Proved for every other representable value of every format."),
 "C26": ("partial", "Round trip and safety proved in full. That an accepted header accounts for exactly its declared length is false: the data of the last element may run past it (refuted). Proved: exactly what is accepted, with that overhang as the only excess."),
 "C28": ("partial", "DELIVER proved in full. SUBMIT fails for the relative validity period of 5 minutes (refuted, the C24 defect); proved for every other well-formed TPDU, and that these are all the TPDUs that come back (C28_submit_exactly, C28_deliver_exactly)."),
 "C29": ("partial", "STATUS-REPORT proved in full. False for delivery and submit reports with FCS = 0 and for commands with a header (all refuted). Proved for every other well-formed TPDU, and that these are all the TPDUs that come back (C29_*_exactly)."),
 "C31": ("partial", "Extensions: proved in full. Prefixes: false for status reports, which may end after the status octet (refuted); proved for all other types, with the exact exception."),
 "C32": ("partial", "False for the constants AlphaReserved and MClassUnknown, which the setters accept in the general group (refuted). Proved for the three alphabets and four classes over every octet, and that these are all the integers that are read back (C32_alphabet_exactly, C32_class_exactly)."),
 "C37": ("partial", "False for TPDUs that are neither SUBMIT nor DELIVER: the error is returned and the segment stored (refuted). Proved for every other error in every state, with the exact condition for rejection."),
 "C38": ("partial", "A segment that arrives while expiry is pending is rejected as a duplicate if the expiring pipe has that number (refuted, and always so: C38_duplicate); otherwise it starts afresh (proved). The rest is proved for every history."),
 "C40": ("partial", "False if multi-part TPDUs that are neither SUBMIT nor DELIVER are collected (refuted: index out of range). Proved for everything else, whatever was collected before."),
 "C41": ("partial", "False for U+001B coded in septets, which never arrives (refuted for every such text), and for more than 256 TPDUs, of which the Collector takes the first few for the whole (C41_long_cut). Proved for every other message and template, decoding for any number of TPDUs, reassembly for up to 255, for any arrival order and any other traffic on the Collector, as long as no timer of the message fires; which is so if timers are not early and each TPDU comes less than the timeout after the one before (C41_in_time_partial)."),
 "C48": ("partial", "False: the slices share their arrays with the pipes (refuted), and Collect in another goroutine writes to them while the caller may read (C48_race_refuted). Proved: only nil entries can change, and the slices returned by Collect never do."),
 "C49": ("partial", "False: a national language header replaces the template's (refuted). Proved: otherwise the template's header comes first in every TPDU, followed at most by the concatenation element."),
 "C52": ("partial", "False for U+001B in septets (refuted). Proved for everything C41_end_to_end_partial covers (no U+001B in septets, at most 255 TPDUs)."),
 "C53": ("partial", "False: parts of reports crash the Collector (refuted). Proved for every list of arguments without those, and C53_exactly says for which lists it crashes, by the program of SpecDeliver (C84)."),
 "C54": ("partial", "False for U+001B in septets (refuted). Proved for every other text of any length."),
 "C57": ("partial", "False: a relative validity period of octet 0, hh:mm:ss of 100 hours or more, an announced but empty header before a message, a header that runs over too far, a COMMAND with a header, a report with cause 0, dates before 1970 or after 2069 and reserved data codings without user data do not survive. Proved: exactly the other accepted TPDUs do, and no TPDU that is not accepted (C57_exactly)."),
 "C58": ("partial", "False for a slice that includes the element just behind the template's header in the same array: a placeholder is written there (refuted). Proved for every other slice, and in full for the template itself; octets are never written."),
 "C59": ("partial", "Headers proved in full. Appending to the user data of one TPDU overwrites the next one's, whose octets are its spare capacity (refuted). Assigning within the user data proved safe."),
 "C60": ("partial", "False if the Encoder's option slice has spare capacity and two calls bring character set options (refuted). Proved for all schedules otherwise, and for calls one after another always."),
 "C61": ("partial", "False for Hindi: codes 0 to 2 are Bengali signs, so the Devanagari ones cannot be sent (refuted). Proved for everything else, with a line feed at code 0x0D of the extension tables in Latin script. The letters of the ten other scripts are specified one by one: the nine of India by the layout they share over their parallel Unicode blocks, Urdu written out."),
 "C63": ("partial", "False if a caller assigns in a map it was given: the maps are shared (refuted). Proved if nobody assigns in a map of the same language. Steps are atomic, which the Go memory model does not promise here: the first calls for a table race (C63_race_refuted); there is no race once the tables have been asked for (C63_warm)."),
 "C64": ("partial", "False as stated: empty user data keeps the old text, a report without data coding is read in the old coding, a status report without parameter indicator keeps the old one (all refuted). Proved exactly for DELIVER, SUBMIT and COMMAND, errors included, and for reports that carry their coding and indicator."),
 "C65": ("proved", "Steps are atomic and interleave, as the Go memory model promises for programs without data races; C65_no_race and C65_writes show that the Collector is one. C65_result_unwritten: the slice a Collect returns is never written again. Reading what Pipes returned after Collect goes on is a race of the caller's; see C48."),
 "C66": ("partial", "False for 100 hours and more in hh:mm:ss, for negative durations in seconds, and for five to ten minutes in the relative format (refuted). Proved for all others, through a model of the float64 arithmetic of Duration.Hours, Minutes and Seconds, which is exact below 4096 hours."),
 "C67": ("proved", "The four exceptions are part of the statement (failed_field in SpecLeft.v) and shown to happen by C67_failed_field_lost. The model keeping the receiver is tied to the one used elsewhere by C67_outcome, and agrees with all 60 rows of the project's own test, leftovers included (Vectors.v)."),
 "C68": ("proved", "What is not shown is not in same_shown (SpecPrint.v): the type of an address other than international, reserved bits, the header of a COMMAND (C68_address_type_not_shown, C68_command_header_not_shown). A dump as a whole is unambiguous, a single line of it is not: a line feed in an address can forge one (C68_forged_line). The dumps in the README are examples."),
 "C69": ("proved", "proper_error (SpecErrorText.v) says what any error of the library is: names of letters, digits and dots, octets, characters. Encode fails only with ErrDcsConflict, see C43. DecodeError and EncodeError have no Unwrap method, so errors.Is and errors.As do not see the cause; the statement is about the Err field and the text."),
 "C70": ("partial", "For smsdeliver false of messages with a line feed (C70_deliver_tells_refuted); proved without, and for numbers without a colon. For smssubmit the messages are those of C54."),
 "C72": ("partial", "False: a surrogate pair split between two TPDUs is put together by appending to a slice of the first one's user data, which overwrites what lies behind it in its array; if that is another TPDU's user data, the text is wrong and that TPDU changed (refuted). Proved if what lies behind belongs to no other TPDU, up to the elements behind the user data, and in full for consecutive pieces of one message, as Segment makes them."),
 "C73": ("partial", "Proved for Unmarshal in full. False for PDUs of a modem, whose TPDU field is the end of the buffer (C73_pdu_refuted, and exactly that: C73_pdu_is_buffer); reading the TPDU from it at once is proved safe."),
 "C74": ("proved", "The grammar (SpecWire.v) includes what the code accepts beyond TS 23.040: months and days that are too large are carried over, the last element of a header may run over into the message, octets behind user data of length 0 and behind a report without user data are ignored, and there may be one more septet if it is 0."),
 "C75": ("proved", "Message type indicators given as an option are 0 to 3 (proper_opt), first octets and codings of templates are octets. The header an option gives is put in the TPDU without the indicator that there is one; see the findings. The coding of the TPDUs is the subject of C45, their headers of C17 and C49."),
 "C76": ("proved", "For any history of TPDUs whose fields are in range (typed_event), parts of other types among them. The events are the steps of Collector.v; C65 shows that goroutines sharing a Collector see such a history."),
 "C77": ("proved", "User data in the 7-bit alphabet is septets (values below 128), as in C01. Hours, minutes and seconds of an enhanced period are those of Go's float64 arithmetic (GoFloat.v), which C66 shows to be exact below 4096 hours. The description includes what the code does beyond TS 23.040: lengths modulo 256, a failure cause of 0 and the parameter indicator of 0 of a status report left out, negative relative periods wrapped around."),
 "C78": ("proved", "encoding/hex is modelled (Utf.v); hex_text and hex_refused describe it independently. Lengths of addresses are written modulo 256, which C22_overlong_wraps shows to matter beyond 508 digits. The exception is shown to happen by C78_type_lost."),
 "C79": ("proved", "The reasons are the code's own; that data of an element may lie behind the end of its header is part of the description, as in C74. Together with C74 every outcome of Unmarshal is characterised."),
 "C80": ('proved', 'The tables themselves are the subject of C61. That user data of a TPDU of another alphabet gets the half pair in front of it is part of the description (finding 41).'),
 "C81": ('proved', 'Both directions: what is described is returned, and what is returned is described. For which templates every message is returned in this way is C19.'),
 "C82": ('proved', 'What the options ask of the template is C75, and how the text is cut is C81; for which templates every message can be cut is C19.'),
 "C83": ('partial', 'Characterised exactly for all octets. Not true of the code: a failed absolute validity period reports 7 octets however few there are, and a failed validity period is set to not present (C83_within_refuted, C83_kept_refuted).'),
 "C84": ('proved', 'The text of a message is that of Decode, which C80 describes; the reasons why a TPDU cannot be read are those of C79; the crash is C53. The flags are those of C85. That parts which are not DELIVER TPDUs share a pile is what the code does, not what a user wants (finding 44).'),
 "C85": ('partial', 'All of it is proved but the last sentence, which is false: smssubmit writes an empty TPDU with status 0 for a number with something that is no digit (C85_submit_status_refuted), and smsdeliver has status 0 after TPDUs it could not read. What the package flag of Go does is modelled from its documentation and source as of Go 1.15; int has 64 bits.'),
 "C86": ('proved', 'This is what the code does, not what a user wants: see C37, C40 and finding 44. TPDUs whose fields are in range (typed_event). C40_exactly says from this when Collect panics.'),
 "C87": ('proved', 'The runtime is assumed to start a timer at the time of the call of Collect that starts it and, where said, to fire it neither early nor late. C87_in_time and C87_on_time: TPDUs whose fields are in range (typed_event).'),
 "C88": ('proved', 'C88_type_parts: directions are 0 or 1, as the constants are.'),
 "C89": ('partial', "False both ways (C89_standard_refuted). C89_pack_partial and C89_unpack_partial say exactly which strings are packed as the standard says, and what every string laid out by the standard is unpacked to; C89_one: the standard's form exists and is unique."),
 "C90": ('partial', 'False: NewEncoder() makes DELIVERs (C90_type_refuted); octets that are no TPDU end the receiving loop, a nil pointer being dereferenced (C90_broken_panics), and so do parts of reports (C90_no_panic_refuted). Proved: the loop goes on for all other octets; for any template and any number of messages, of 1 to 255 TPDUs each and without U+001B coded in septets (see C41), the messages come out as they went in.'),
 "C91": ('partial', 'False if a message is overtaken by the 256th after it of the same sender: of two messages one is put together that was never sent (C91_interleaved_refuted). Proved for all other schedules, and so for all schedules of up to 256 messages (C91_few_partial), for messages of 1 to 255 TPDUs as in C90.'),
 "C92": ('proved', 'The octets of addresses, time stamps and validity periods are values in this model: their arrays are read once and dropped.'),
 "C93": ('partial', 'False of 8-bit data, which is returned as it is: changing the text changes the TPDU (C93_refuted). Proved for the other alphabets.'),
 "C94": ('proved', 'The runtime is assumed to fire timers neither early nor late, as in C87; TPDUs whose fields are in range (typed_event). C94_afresh: until Close. This is what C91_interleaved_refuted lacks, whose Collector has no timeout.'),
 "C95": ('proved', 'The rounds (C95_rounds, _at_least_once, _once) as long as no timer of the message fires and until Close; C95_at_most and C95_same for any timing. TPDUs whose fields are in range (typed_event). The texts of C95_text are those of C41_end_to_end_partial. A copy that comes after its message was handed out begins a round that may never end: it is then reported by the timeout handler, or stays.'),
 "C96": ('partial', 'False if the references are the same number (C96_refuted): half of each is put together and returned as one message. This is so of all such messages of two parts (C96_joined). Proved unless the references are the same number and the messages have as many parts. The 8-bit part has fields in range (typed).'),
 "C97": ('proved', 'Count is taken to be atomic, as atomic.AddInt64 is. What else the calls share, the slice of options, is the subject of C60. C97_text has the conditions of C41.'),
 "C98": ('proved', 'The conditions on texts and templates are those of C41, which says what becomes of the others. More than 256 messages at a time may share reference numbers; C35 says what then becomes of them.'),
 "C99": ('proved', 'The conditions on texts and templates are those of C41, which says what becomes of the others. More than 256 messages at a time may share reference numbers; C35 and C94 say what then becomes of them.'),
 "C100": ('proved', 'A handler is a number, what it does is not modelled; that it runs without the lock is in C65. That a negative timeout makes reassembly impossible is the finding 53.'),
}
