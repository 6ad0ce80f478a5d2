{"id": "C01", "title": "7-bit packing round trip", "statement": "Unpacking a packed septet array gives the array back, for every fill-bit count 0..6; the only permitted difference is the single documented trailing zero septet, and it appears only when exactly 7 bits of the last octet are unused.", "quantifier": "every list of septets (any length, any values < 128) and every fillBits in 0..6", "why_tests_cant": "The residual-bit state machine has a different carry at every position; tests fix a few lengths and fills, the claim is about every length modulo 8 combined with every fill and content.", "anchors": ["encoding/gsm7/7bit.go: Pack7Bit", "encoding/gsm7/7bit.go: Unpack7Bit"]}
{"id": "C02", "title": "7-bit packing is bit-exact", "statement": "The packed octets, read as a little-endian bit stream, are exactly fillBits zero bits, then the 7 bits of each septet in order, then zero bits up to the octet boundary; the packed length is ceil((fill+7n)/8). Unpacking is exactly 'drop the fill, cut into complete 7-bit groups', for every octet string.", "quantifier": "every list of septets, every octet string, every fillBits in 0..6", "why_tests_cant": "Interoperability depends on the layout of every bit for every length; sample vectors cannot cover it.", "anchors": ["encoding/gsm7/7bit.go: Pack7Bit", "encoding/gsm7/7bit.go: Unpack7Bit"]}
{"id": "C03", "title": "USSD packing round trip", "statement": "For every non-empty septet string, unpacking the USSD-packed form returns the string (or, as 3GPP TS 23.038 6.1.2.3 allows, the string plus one CR).", "quantifier": "every list of septets and fillBits in 0..6", "why_tests_cant": "The CR-filler decision depends on the last octet's value together with the length modulo 8; a few literals miss the colliding values.", "anchors": ["encoding/gsm7/7bit.go: Pack7BitUSSD", "encoding/gsm7/7bit.go: Unpack7BitUSSD"]}
{"id": "C04", "title": "Semi-octet round trip and bounds", "statement": "Every string over the alphabet 0-9*#abc encodes to ceil(n/2) octets and decodes back to itself with all octets consumed; any other character is rejected naming it; Decode never produces more digits than the destination holds and never indexes out of range whatever the input.", "quantifier": "every digit string, every byte string, every destination length", "why_tests_cant": "Odd/even length, embedded fill nibbles and the destination-length bound interact; only quantification over all inputs settles bounds safety.", "anchors": ["encoding/semioctet/semioctet.go: Decode", "encoding/semioctet/semioctet.go: Encode"]}
{"id": "C05", "title": "BCD conversions are exact inverses", "statement": "bcd.Encode succeeds exactly on 0..99 and bcd.Decode inverts it; bcd.EncodeSigned succeeds exactly on -79..79 and bcd.DecodeSigned inverts it; Decode succeeds exactly on octets whose two nibbles are decimal digits and re-encoding gives the octet back.", "quantifier": "every int and every octet", "why_tests_cant": "The unsigned and signed domains include all integers for the rejection half of the claim.", "anchors": ["encoding/bcd/bcd.go: Decode", "encoding/bcd/bcd.go: DecodeSigned", "encoding/bcd/bcd.go: Encode", "encoding/bcd/bcd.go: EncodeSigned"]}
{"id": "C06", "title": "GSM7 text round trip", "statement": "If gsm7.Encode accepts a UTF-8 message with some locking and shift character sets, gsm7.Decode with the same character sets returns exactly the message.", "quantifier": "every byte string, every pair of locking/shift character set identifiers", "why_tests_cant": "Depends on all 28 tables being mutually consistent and on escape handling for every character sequence.", "anchors": ["encoding/gsm7/gsm7.go: Encoder.Encode", "encoding/gsm7/gsm7.go: Decoder.Decode", "encoding/gsm7/charset/charset.go: NewEncoder", "encoding/gsm7/charset/charset.go: NewDecoder"]}
{"id": "C07", "title": "GSM7 decoding is total and meaningful", "statement": "Non-strict gsm7 decoding accepts every septet string and yields valid UTF-8 with exactly one character per septet outside escape pairs and one per escape pair, escapes followed by an unknown code falling back to the locking table; strict decoding fails exactly when some septet has no mapping, naming the first such septet.", "quantifier": "every septet string, every pair of tables, strict or not", "why_tests_cant": "The escape state carries across the whole string; claims about every string need induction.", "anchors": ["encoding/gsm7/gsm7.go: Decoder.Decode"]}
{"id": "C08", "title": "Character-set encoders are deterministic inverses", "statement": "For every built-in character set, decoding the code the generated encoder gives for a character yields that character, every decodable character is encodable, and the generated encoder does not depend on Go's map iteration order.", "quantifier": "every table, every character, every iteration order of the decoder map", "why_tests_cant": "Go randomises map iteration; a test sees one order per run.", "anchors": ["encoding/gsm7/charset/charset.go: generateEncoder", "encoding/gsm7/charset/charset.go: generateEncoderFromRunes", "encoding/gsm7/charset/charset.go"]}
{"id": "C09", "title": "UCS-2 round trip", "statement": "ucs2.Decode(ucs2.Encode(r)) returns r for every sequence of Unicode scalar values, and re-encoding a decoded well-formed UTF-16BE byte string returns the same bytes.", "quantifier": "every sequence of scalar values; every byte string", "why_tests_cant": "Surrogate pairs may appear at any position in any mix.", "anchors": ["encoding/ucs2/ucs2.go: Encode", "encoding/ucs2/ucs2.go: Decode"]}
{"id": "C10", "title": "UCS-2 decode errors are exact", "statement": "ucs2.Decode fails with ErrInvalidLength exactly on odd lengths and with ErrDanglingSurrogate exactly when the string ends inside a surrogate pair, returning everything before it and the two offending bytes; it never reads out of range.", "quantifier": "every byte string", "why_tests_cant": "Error precision and bounds must hold at every end position.", "anchors": ["encoding/ucs2/ucs2.go: Decode"]}
{"id": "C11", "title": "User data round trip", "statement": "For every UTF-8 message and every selection of character sets, decoding the user data, header and alphabet produced by EncodeUserData with those character sets (or with all) returns the message.", "quantifier": "every message, every list of encoder charset options", "why_tests_cant": "The automatic alphabet choice multiplies the cases; correctness must hold for whichever branch is taken.", "anchors": ["encoding/tpdu/userdata.go: EncodeUserData", "encoding/tpdu/userdata.go: DecodeUserData"]}
{"id": "C12", "title": "Alphabet selection order", "statement": "EncodeUserData uses the GSM7 default alphabet with no header whenever the message is encodable in it, otherwise the first registered locking table, then the first registered shift table, then the first same-language locking+shift pair that can encode it, and UCS-2 only if none can; the header names exactly the tables used.", "quantifier": "every message and every option list", "why_tests_cant": "Minimality is a claim about all rejected alternatives.", "anchors": ["encoding/tpdu/userdata.go: EncodeUserData"]}
{"id": "C13", "title": "Segmentation loses nothing and respects the block size", "statement": "The UDs of the TPDUs returned by Segment, concatenated in order, are exactly the message; none is empty; each is no larger than the UDBlockSize of its own TPDU.", "quantifier": "every message, template, alphabet and concat-IE width for which the block has room", "why_tests_cant": "Off-by-one at a boundary shows only for particular lengths and contents.", "anchors": ["encoding/tpdu/tpdu.go: TPDU.Segment", "encoding/tpdu/tpdu.go: chunk7Bit", "encoding/tpdu/tpdu.go: chunk8Bit", "encoding/tpdu/tpdu.go: chunkUCS2"]}
{"id": "C14", "title": "Escapes and surrogate pairs are never split", "statement": "No segment of a GSM7-encoded message ends between an escape and its escaped character, and no segment of a UCS-2 encoded message ends between the halves of a surrogate pair.", "quantifier": "every message accepted by the encoders, every block size", "why_tests_cant": "The boundary may fall anywhere relative to the escapes.", "anchors": ["encoding/tpdu/tpdu.go: chunk7Bit", "encoding/tpdu/tpdu.go: chunkUCS2"]}
{"id": "C15", "title": "Segmentation is optimal", "statement": "No division of the message into blocks of at most the block size that respects escape pairs (or surrogate pairs) uses fewer segments than Segment does.", "quantifier": "every message, block size and competing division", "why_tests_cant": "Optimality quantifies over all competing divisions.", "anchors": ["encoding/tpdu/tpdu.go: chunk7Bit", "encoding/tpdu/tpdu.go: chunk8Bit", "encoding/tpdu/tpdu.go: chunkUCS2"]}
{"id": "C16", "title": "Segments carry consistent concatenation information", "statement": "The TPDUs of a multi-segment message all report the same reference and total, the total is the number of TPDUs, the sequence numbers are 1..n in order, and IsCompleteMessage accepts them; a short message carries no concatenation information added by Segment.", "quantifier": "every message, template and concat-IE width", "why_tests_cant": "Counts above a byte's range and template headers interact with the appended IE.", "anchors": ["encoding/tpdu/tpdu.go: TPDU.Segment", "encoding/tpdu/tpdu.go: newInfoElement", "encoding/tpdu/userdata.go: UserDataHeader.ConcatInfo", "sms.go: IsCompleteMessage"]}
{"id": "C17", "title": "Segments inherit the template", "statement": "Every TPDU returned by Segment agrees with the template in every field except UD, MR (taken from the counter, modulo 256, in order, when one is given), the appended concat IE, and the UDHI/PI-UDL flags set with it.", "quantifier": "every template, message and counter", "why_tests_cant": "All fields of all templates.", "anchors": ["encoding/tpdu/tpdu.go: TPDU.Segment"]}
{"id": "C18", "title": "Segments fit in a TPDU", "statement": "For SMS-SUBMIT and SMS-DELIVER the marshalled user data of each TPDU returned by Segment, including its header, is at most 140 octets and its length octet is exact.", "quantifier": "every message, alphabet, template header and concat-IE width", "why_tests_cant": "Septet/octet arithmetic with fill bits must be right for every header length.", "anchors": ["encoding/tpdu/tpdu.go: TPDU.UDBlockSize", "encoding/tpdu/tpdu.go: TPDU.encodeUserData"]}
{"id": "C19", "title": "Segment always terminates without panicking", "statement": "Segment returns for every message and every template.", "quantifier": "every message and template", "why_tests_cant": "Termination on all inputs is not testable.", "anchors": ["encoding/tpdu/tpdu.go: TPDU.Segment", "encoding/tpdu/tpdu.go: chunk7Bit", "encoding/tpdu/tpdu.go: chunkUCS2"]}
{"id": "C20", "title": "Numeric address round trip", "statement": "Marshalling a non-alphanumeric address whose digits are semi-octet digits and whose length fits the length octet, then unmarshalling with anything following it, returns the same address and the exact number of octets consumed.", "quantifier": "every digit string up to 255 digits, every type-of-address octet, every following byte string", "why_tests_cant": "Odd/even lengths and trailing context.", "anchors": ["encoding/tpdu/address.go: Address.MarshalBinary", "encoding/tpdu/address.go: Address.UnmarshalBinary"]}
{"id": "C21", "title": "Alphanumeric address round trip", "statement": "The same for alphanumeric addresses: every text over the default alphabet that fits the length octet survives.", "quantifier": "every text encodable in the GSM7 default alphabet, every following byte string", "why_tests_cant": "The semi-octet length, septet count and fill septet interplay modulo 8.", "anchors": ["encoding/tpdu/address.go: Address.MarshalBinary", "encoding/tpdu/address.go: Address.UnmarshalBinary"]}
{"id": "C22", "title": "PDU mode round trip", "statement": "A PDU (SMSC address plus TPDU bytes) marshalled to binary or hex and unmarshalled gives back the same SMSC address and exactly the same TPDU bytes; unmarshalling never panics and the documented 'should never trip' error never occurs.", "quantifier": "every SMSC digit string of 1 to 508 digits (or none, which comes back as the empty address), every TPDU byte string; every byte/hex string for the safety half", "why_tests_cant": "All lengths and contents, hostile input.", "anchors": ["encoding/pdumode/smscaddress.go: SMSCAddress.MarshalBinary", "encoding/pdumode/smscaddress.go: SMSCAddress.UnmarshalBinary", "encoding/pdumode/pdu.go"]}
{"id": "C23", "title": "Timestamp round trip", "statement": "Every time from 1970 to 2069 with whole seconds and a zone offset that is a multiple of 15 minutes within +/-79 quarters survives marshalling and unmarshalling with the same local time, instant and offset.", "quantifier": "every second of a century times every quarter-hour zone", "why_tests_cant": "Billions of instants, including leap days.", "anchors": ["encoding/tpdu/timestamp.go: Timestamp.MarshalBinary", "encoding/tpdu/timestamp.go: Timestamp.UnmarshalBinary"]}
{"id": "C24", "title": "Relative validity period", "statement": "Encoding a duration as a relative validity period yields the largest representable period not exceeding it (the smallest representable for shorter durations); decoding then encoding any octet returns the octet; the encoding is monotone in the duration.", "quantifier": "every duration and every octet", "why_tests_cant": "Durations are 63-bit; boundary values between the four ranges are where errors hide.", "anchors": ["encoding/tpdu/validityperiod.go: durationToRelative", "encoding/tpdu/validityperiod.go: relativeToDuration"]}
{"id": "C25", "title": "Enhanced and absolute validity period round trip", "statement": "A validity period in any format whose value is representable in the format survives marshalling and unmarshalling; reserved formats and non-zero fill are rejected.", "quantifier": "every representable validity period; every 7-octet field", "why_tests_cant": "All format/flag/value combinations.", "anchors": ["encoding/tpdu/validityperiod.go: ValidityPeriod.MarshalBinary", "encoding/tpdu/validityperiod.go: ValidityPeriod.UnmarshalBinary"]}
{"id": "C26", "title": "User data header round trip", "statement": "Marshalling a header whose elements fit the length octets and unmarshalling it with anything following returns the same elements and the exact header length; unmarshalling never reads outside the input; an accepted header accounts for exactly its declared length.", "quantifier": "every list of information elements; every byte string", "why_tests_cant": "Arbitrary nesting of lengths in hostile input.", "anchors": ["encoding/tpdu/userdata.go: UserDataHeader.MarshalBinary", "encoding/tpdu/userdata.go: UserDataHeader.UnmarshalBinary"]}
{"id": "C27", "title": "User data field round trip", "statement": "For each alphabet, the user data field (length octet, header, fill bits, message) written for a TPDU is read back as the same header and message.", "quantifier": "every header that fits, every message that fits, all three alphabets", "why_tests_cant": "Fill bits depend on the header length modulo 7 and trailing padding on the message length modulo 8.", "anchors": ["encoding/tpdu/tpdu.go: TPDU.encodeUserData", "encoding/tpdu/tpdu.go: TPDU.decodeUserData", "encoding/tpdu/tpdu.go: decode7Bit"]}
{"id": "C28", "title": "SUBMIT and DELIVER round trip", "statement": "Marshalling a well-formed SMS-SUBMIT or SMS-DELIVER TPDU and unmarshalling the result gives back every field that type carries.", "quantifier": "every well-formed TPDU of the two types", "why_tests_cant": "Combinations of all field values.", "anchors": ["encoding/tpdu/tpdu.go: TPDU.MarshalBinary", "encoding/tpdu/tpdu.go: TPDU.UnmarshalBinary"]}
{"id": "C29", "title": "Report and command round trip", "statement": "The same for SMS-STATUS-REPORT, SMS-SUBMIT-REPORT, SMS-DELIVER-REPORT and SMS-COMMAND.", "quantifier": "every well-formed TPDU of the four types", "why_tests_cant": "Optional fields are selected by bit flags; all combinations.", "anchors": ["encoding/tpdu/tpdu.go: TPDU.MarshalBinary", "encoding/tpdu/tpdu.go: TPDU.UnmarshalBinary"]}
{"id": "C30", "title": "Unmarshal is safe on hostile input", "statement": "Unmarshal returns a TPDU or an error for every byte string and direction: it never panics or loops.", "quantifier": "every byte string, every direction", "why_tests_cant": "All byte strings; fuzzing only samples.", "anchors": ["sms.go: Unmarshal", "encoding/tpdu/tpdu.go: TPDU.UnmarshalBinary"]}
{"id": "C31", "title": "Unmarshal accounts for every octet", "statement": "For TPDUs that carry user data with a non-zero length octet, neither a proper prefix nor a proper extension of an accepted TPDU is accepted.", "quantifier": "every accepted TPDU and every prefix and extension", "why_tests_cant": "All truncations and extensions of all messages.", "anchors": ["encoding/tpdu/tpdu.go: TPDU.decodeUserData"]}
{"id": "C32", "title": "DCS alphabet and class fields", "statement": "Setting the alphabet or message class of a DCS, when accepted, makes the corresponding getter return it and leaves the other field, the compression flag and the coding group unchanged; acceptance is exactly when the coding group can express it.", "quantifier": "every DCS octet, alphabet and class", "why_tests_cant": "Every octet and every value, with preservation claims.", "anchors": ["encoding/tpdu/dcs.go: DCS.Alphabet", "encoding/tpdu/dcs.go: DCS.WithAlphabet", "encoding/tpdu/dcs.go: DCS.Class", "encoding/tpdu/dcs.go: DCS.WithClass", "encoding/tpdu/dcs.go: DCS.Compressed"]}
{"id": "C33", "title": "TPDU flag setters are independent", "statement": "SetSmsType, SetVP, SetUDH, SetUD, SetDCS and SetPID each make the corresponding getter report the new value and change no other flag or field; so do WithMTI and WithVPF of a first octet, given one of the four values.", "quantifier": "every TPDU and every argument; every octet", "why_tests_cant": "Bit fields share octets; all values of all other bits.", "anchors": ["encoding/tpdu/tpdu.go: TPDU.SetSmsType", "encoding/tpdu/tpdu.go: TPDU.SetVP", "encoding/tpdu/tpdu.go: TPDU.SetUDH", "encoding/tpdu/firstoctet.go", "encoding/tpdu/parameterindicator.go"]}
{"id": "C34", "title": "Collector reassembles in any arrival order", "statement": "If the n segments of a message are collected in any order, interleaved with any other traffic, and no timeout intervenes, every Collect but the last for that message returns nothing and the last returns the n segments in sequence order.", "quantifier": "every number of segments, arrival order and interleaving of other messages", "why_tests_cant": "Factorially many orders and unboundedly many interleavings.", "anchors": ["collect.go: Collector.Collect"]}
{"id": "C35", "title": "Collector never mixes messages", "statement": "Whatever is collected in whatever order, with timers firing at any time, a multi-segment result consists of segments of one message: same type, address, reference and total, in sequence order with none missing.", "quantifier": "every history of Collect, Close, Pipes and timer events with SUBMIT/DELIVER TPDUs", "why_tests_cant": "Histories and timer schedules are unbounded; the reassembly key is a formatted string that must be injective for every address.", "anchors": ["collect.go: Collector.Collect", "collect.go: pduKey"]}
{"id": "C36", "title": "Collector hands out every segment exactly once", "statement": "At every point of every history each accepted segment is in exactly one place: returned by Collect, held in a pipe, or given (or about to be given) to the expiry handler; none is lost or duplicated, until Close.", "quantifier": "every history and timer schedule", "why_tests_cant": "The stop-versus-fire race depends on schedules tests cannot force.", "anchors": ["collect.go: Collector.Collect", "collect.go: Collector.Close"]}
{"id": "C37", "title": "Rejected segments change nothing", "statement": "A Collect call that returns an error leaves the reassembly state unchanged.", "quantifier": "every reachable state and TPDU", "why_tests_cant": "All reachable states.", "anchors": ["collect.go: Collector.Collect"]}
{"id": "C38", "title": "Reassembly timeout", "statement": "When a reassembly times out, its segments are passed to the handler exactly once and its pipe is removed, a segment arriving while expiry is pending starts a fresh reassembly, and a completed reassembly never expires.", "quantifier": "every history and timer schedule", "why_tests_cant": "Races between timer goroutine and Collect.", "anchors": ["collect.go: Collector.Collect", "collect.go: WithReassemblyTimeout"]}
{"id": "C39", "title": "Closed collector", "statement": "After Close every Collect returns ErrClosed and changes nothing, no timer fires thereafter, and Close is idempotent.", "quantifier": "every history before and after Close", "why_tests_cant": "All histories.", "anchors": ["collect.go: Collector.Close"]}
{"id": "C40", "title": "Collect never panics", "statement": "Collect returns normally for every TPDU in every reachable state.", "quantifier": "every history and TPDU of any type", "why_tests_cant": "All histories including hostile TPDUs.", "anchors": ["collect.go: Collector.Collect"]}
{"id": "C41", "title": "End-to-end delivery", "statement": "A UTF-8 message encoded by Encode, each TPDU marshalled, transported, unmarshalled, and collected in any order, decodes to exactly the original message.", "quantifier": "every UTF-8 message, destination, charset selection, arrival order", "why_tests_cant": "Composition of every layer over all messages.", "anchors": ["encode.go: Encode", "sms.go: Unmarshal", "collect.go: Collector.Collect", "sms.go: Decode"]}
{"id": "C42", "title": "Decode is insensitive to where UCS-2 was split", "statement": "Decoding a well-formed UTF-16 message split into segments at any character-unit boundaries, including inside surrogate pairs, gives the same text as decoding it whole; a message ending in half a pair is an error.", "quantifier": "every message and every division into 2-byte-aligned segments", "why_tests_cant": "All divisions.", "anchors": ["sms.go: Decode"]}
{"id": "C43", "title": "Encoder counters", "statement": "Successive TPDUs from an Encoder carry message references that count up by one modulo 256 across messages, each multi-segment message consumes exactly one concat reference, and concurrent users of a counter never obtain the same count (before 2^64 wrap-around).", "quantifier": "every sequence of messages; every interleaving of concurrent calls", "why_tests_cant": "Unbounded histories and schedules.", "anchors": ["encode.go: Counter.Count", "encode.go: Encoder.Encode", "encoding/tpdu/tpdu.go: TPDU.Segment"]}
{"id": "C44", "title": "IsCompleteMessage is exact", "statement": "IsCompleteMessage is true exactly for a single TPDU without concatenation information, or for n TPDUs all reporting the same reference and total n with sequence numbers 1..n in order.", "quantifier": "every list of TPDUs", "why_tests_cant": "All lists of all lengths.", "anchors": ["sms.go: IsCompleteMessage"]}
{"id": "C45", "title": "Encode honours the DCS", "statement": "Encode fails only with ErrDcsConflict, exactly when the alphabet it needs cannot be expressed in the template's DCS group; otherwise every TPDU's DCS reports the alphabet in which its UD is encoded and the remaining DCS bits are the template's.", "quantifier": "every message, template DCS and option list", "why_tests_cant": "256 DCS values times all messages.", "anchors": ["encode.go: Encoder.Encode"]}
{"id": "C46", "title": "Decode errors locate the fault", "statement": "The offset in a decode error returned by Unmarshal lies within the input (0..len).", "quantifier": "every byte string and direction that is rejected", "why_tests_cant": "Offsets accumulate through nested decoders.", "anchors": ["encoding/tpdu/error.go: NewDecodeError", "encoding/tpdu/tpdu.go: TPDU.UnmarshalBinary"]}
{"id": "C47", "title": "Numbers survive addressing", "statement": "To(number)/From(number) produce an international ISDN address whose Number() is the number with a single leading +, whether or not the + was supplied. NewAddress applies its options in order to an empty address, leaves what they set and sets the top bit of the type octet.", "quantifier": "every string; every list of address options", "why_tests_cant": "All strings.", "anchors": ["encoding/tpdu/address.go: NewAddress", "encoding/tpdu/address.go: Address.SetNumber", "encoding/tpdu/address.go: Address.Number", "options.go: To", "options.go: From"]}
{"id": "C48", "title": "Pipes is a snapshot", "statement": "The value returned by Pipes is not changed by later Collect calls.", "quantifier": "every history", "why_tests_cant": "Aliasing shows only for particular later calls.", "anchors": ["collect.go: Collector.Pipes"]}
{"id": "C49", "title": "Template header is kept when encoding", "statement": "A UDH supplied in the encoding template is present in every TPDU produced by Encode.", "quantifier": "every template UDH, message and charset selection", "why_tests_cant": "Depends on which alphabet branch the message takes.", "anchors": ["encode.go: Encoder.Encode", "options.go: WithTemplate", "encoding/tpdu/options.go: WithUDH"]}
{"id": "C50", "title": "smscounter statistics", "statement": "For every non-empty message, NewCount reports the number of TPDUs Encode produces, a last-part length between 1 and the per-message capacity, a non-negative remainder, and a total length not less than the real one.", "quantifier": "every non-empty message and language", "why_tests_cant": "All messages.", "anchors": ["cmd/smscounter/smscounter.go: NewCount"]}
{"id": "C51", "title": "smsdecode shows what it is given", "statement": "smsdecode never crashes, whatever its argument; it shows a TPDU exactly if the argument is the hex form of octets that Unmarshal accepts, behind an SMSC address in PDU mode, and the TPDU shown is the one Unmarshal returns.", "quantifier": "every argument string, both modes and directions", "why_tests_cant": "Arguments are arbitrary text.", "anchors": ["cmd/smsdecode/smsdecode.go: main", "cmd/smsdecode/smsdecode.go: decode", "cmd/smsdecode/smsdecode.go: dumpTPDU"]}
{"id": "C52", "title": "smsdeliver prints the message", "statement": "Given the TPDUs of one message for a mobile station, in any order, smsdeliver prints the message once with the originating number, prints nothing else, and leaves no reassembly open.", "quantifier": "every template, message, number of parts and order of arguments", "why_tests_cant": "Orders multiply with the number of parts.", "anchors": ["cmd/smsdeliver/smsdeliver.go: main", "collect.go: Collector.Collect", "sms.go: Decode"]}
{"id": "C53", "title": "smsdeliver never crashes", "statement": "smsdeliver does not panic or hang, whatever its arguments.", "quantifier": "every list of argument strings, both modes", "why_tests_cant": "The state after each argument decides what the next one does.", "anchors": ["cmd/smsdeliver/smsdeliver.go: main", "collect.go: Collector.Collect"]}
{"id": "C54", "title": "smssubmit output holds the message", "statement": "For every number of digits and every text, smssubmit prints hex strings which smsdecode reads as SUBMIT TPDUs addressed to that number, and decoding these TPDUs gives the text.", "quantifier": "every number, text and language identifier", "why_tests_cant": "All texts, numbers and languages.", "anchors": ["cmd/smssubmit/smssubmit.go: main", "cmd/smsdecode/smsdecode.go: decode", "encode.go: Encode"]}
{"id": "C55", "title": "Header elements are found", "statement": "IE returns the last element with an identifier and reports its absence exactly if there is none; IEs returns all of them in order; ConcatInfo reports the part given by the last well-formed 8-bit reference element, else by the 16-bit one, for a header and for a TPDU; ConcatInfo8 and ConcatInfo16 each look at their kind only; IsSingleSegment is true exactly of TPDUs whose header says no part; UDHL is the number of octets of the header behind the first.", "quantifier": "every header and TPDU", "why_tests_cant": "Headers with several elements of one kind in any arrangement.", "anchors": ["encoding/tpdu/userdata.go: UserDataHeader.IE", "encoding/tpdu/userdata.go: UserDataHeader.IEs", "encoding/tpdu/userdata.go: UserDataHeader.ConcatInfo"]}
{"id": "C56", "title": "Unmarshal returns sound TPDUs", "statement": "A TPDU returned by Unmarshal has octets in all its octet fields, addresses of legal digits or text, user data in the units of its alphabet with a header only if the indicator is set, and nothing in fields its type does not carry.", "quantifier": "every byte string and both directions", "why_tests_cant": "All byte strings.", "anchors": ["sms.go: Unmarshal", "encoding/tpdu/tpdu.go: TPDU.UnmarshalBinary"]}
{"id": "C57", "title": "Accepted TPDUs survive re-encoding", "statement": "A TPDU returned by Unmarshal can be marshalled, and unmarshalling the result gives the same TPDU.", "quantifier": "every byte string and both directions", "why_tests_cant": "All byte strings; the octets need not come back, only the TPDU.", "anchors": ["sms.go: Unmarshal", "encoding/tpdu/tpdu.go: TPDU.UnmarshalBinary", "encoding/tpdu/tpdu.go: TPDU.MarshalBinary"]}
{"id": "C58", "title": "Segment leaves the caller's memory alone", "statement": "Segment (and so Encode) changes no header or message the caller holds: not the template's, and no other slice of the same arrays.", "quantifier": "every memory, template, message and set of options, and every way append may grow a slice", "why_tests_cant": "What is overwritten depends on spare capacity and on who else holds the array.", "anchors": ["encoding/tpdu/tpdu.go: TPDU.Segment"]}
{"id": "C59", "title": "The TPDUs of one message are independent", "statement": "The caller may change or extend the header or the user data of one TPDU returned by Segment without changing another.", "quantifier": "every memory, template, message and set of options, and every use of one TPDU", "why_tests_cant": "What is overwritten depends on spare capacity.", "anchors": ["encoding/tpdu/tpdu.go: TPDU.Segment", "encoding/tpdu/tpdu.go: chunk"]}
{"id": "C60", "title": "Concurrent calls of Encode do not interfere", "statement": "Each of any number of calls of Encode on one Encoder encodes with the Encoder's options and its own, whatever the interleaving, and the Encoder keeps its options.", "quantifier": "every Encoder, set of calls with options, and interleaving of their steps", "why_tests_cant": "All interleavings, and all capacities the option slice may have.", "anchors": ["encode.go: Encoder.Encode", "encode.go: NewEncoder", "options.go: ApplyEncoderOption"]}
{"id": "C61", "title": "The tables are those of the languages", "statement": "The default, Turkish, Spanish and Portuguese tables are exactly those of 3GPP TS 23.038 (the default also for unknown identifiers); the tables of the other ten languages are exactly the shared Latin part and the letters of the script of the language at the codes of the standard, so that every character of the script can be written.", "quantifier": "every int as language identifier, every code and character", "why_tests_cant": "28 tables of up to 128 entries; tests compare a table with a copy of itself.", "anchors": ["encoding/gsm7/charset/charset.go: NewDecoder", "encoding/gsm7/charset/charset.go: NewExtDecoder", "encoding/gsm7/charset/hindi.go: hindiDecoder"]}
{"id": "C62", "title": "gsm7 options", "statement": "Of the options given to gsm7.Encode and gsm7.Decode the last of each kind counts, whatever the order of the kinds; a text survives if both ask for the same tables; with tables of the caller's own it survives if these undo each other. The methods of a Decoder or Encoder, called in any number and order, change what they name and nothing else.", "quantifier": "every list of options, every sequence of method calls, every table, text and septet string", "why_tests_cant": "All lists of options and all tables.", "anchors": ["encoding/gsm7/gsm7.go: NewDecoder", "encoding/gsm7/gsm7.go: NewEncoder", "encoding/gsm7/gsm7.go: Decoder.WithCharset", "encoding/gsm7/gsm7.go: Decoder.Strict"]}
{"id": "C63", "title": "The built-in tables under concurrent use", "statement": "Any number of goroutines may ask for built-in tables at the same time: each gets the table of its language in at most three steps of its own and never crashes, whatever the others do, including with the tables they got, and without a data race.", "quantifier": "every set of calls, interleaving, and sequence of assignments to returned maps", "why_tests_cant": "The tables are built on first use without a lock.", "anchors": ["encoding/gsm7/charset/charset.go: NewDecoder", "encoding/gsm7/charset/charset.go: NewEncoder", "encoding/gsm7/charset/charset.go: NewExtEncoder", "encoding/gsm7/charset/charset.go: DefaultDecoder"]}
{"id": "C64", "title": "Reading into a used TPDU", "statement": "Calling UnmarshalBinary on a TPDU that already holds a message gives what a new TPDU of the same direction would give: the same error, or the same message, which marshals to the same octets; fields that are not part of the message type stay.", "quantifier": "every TPDU and every sequence of octets", "why_tests_cant": "The result could depend on any field left by any earlier message.", "anchors": ["encoding/tpdu/tpdu.go: TPDU.UnmarshalBinary", "encoding/tpdu/tpdu.go: TPDU.decodeUserData", "encoding/tpdu/validityperiod.go: ValidityPeriod.UnmarshalBinary"]}
{"id": "C65", "title": "A Collector shared by goroutines", "statement": "Collect, Close, Pipes and the timers of a Collector may run at the same time: the calls give what they would give one at a time in some order in which each takes effect between being made and returning; there is no data race; the segments a Collect returns are not written any more; no call waits for ever, also not one made by the expiry handler, which is called without the lock and with segments nobody writes any more; no segment comes back more often than it was given; a message collected by many goroutines is returned exactly once.", "quantifier": "every number of goroutines, set of calls, interleaving of their steps, and moment at which a timer fires", "why_tests_cant": "Calls interleave step by step, and timers fire in the middle of a call.", "anchors": ["collect.go: Collector.Collect", "collect.go: Collector.Close", "collect.go: Collector.Pipes"]}
{"id": "C66", "title": "Durations are shortened to fit", "statement": "A validity period written in the enhanced format and read back is the longest period that format can express that is not longer than the one given.", "quantifier": "every duration, in nanoseconds, and every functionality indicator", "why_tests_cant": "All int64 durations, through float64 arithmetic.", "anchors": ["encoding/tpdu/validityperiod.go: ValidityPeriod.MarshalBinary", "encoding/tpdu/validityperiod.go: durationToRelative"]}
{"id": "C67", "title": "What a failed UnmarshalBinary leaves in the TPDU", "statement": "If UnmarshalBinary fails, the TPDU is unmarshalled up to the field the error names: the fields before it hold what any TPDU beginning with the same octets would have put there, the direction, the fields after it and those the message type does not have hold what they held before. The named field itself is unchanged, except that a missing octet of a COMMAND or the missing PID of a DELIVER leaves 0, a broken validity period leaves the format 'not present', and an unknown message type leaves a first octet of 0.", "quantifier": "every TPDU and every sequence of octets that is refused", "why_tests_cant": "Every cut and every damage of every message, on a TPDU with any contents.", "anchors": ["encoding/tpdu/tpdu.go: TPDU.UnmarshalBinary", "encoding/tpdu/tpdu.go: TPDU.unmarshalSubmit", "encoding/tpdu/error.go: DecodeError"]}
{"id": "C68", "title": "What smsdecode prints", "statement": "smsdecode prints a dump or an error for every argument, and the dump tells what was decoded: two arguments with the same output carry TPDUs of the same type with the same numbers, times, durations, codings, indicators, header and user data, as far as the type has them, and the number of the same SMSC; so messages with the same dumps have the same text.", "quantifier": "every argument, flag and TPDU", "why_tests_cant": "Two of the infinitely many TPDUs could be printed alike, for example by way of line feeds in addresses or user data.", "anchors": ["cmd/smsdecode/smsdecode.go: dumpTPDU", "cmd/smsdecode/smsdecode.go: dumpUD", "encoding/tpdu/dcs.go: DCS.String", "encoding/tpdu/timestamp.go: Timestamp.String"]}
{"id": "C69", "title": "Errors say what is wrong", "statement": "The text of an error names the field, the offset, the offending value and the cause, and tells the error: two errors of the library with the same text are the same error. Unmarshal (also of PDU mode) fails only with a DecodeError whose field is a dotted name, whose offset lies within the input and whose cause is one of a fixed list; MarshalBinary fails only with an EncodeError with a dotted name and a cause of another fixed list, or because the type is not defined; Decode fails only with the two errors of UCS-2; Collect only with its own errors and that of the type.", "quantifier": "every input of Unmarshal, MarshalBinary, Decode, Collect and PDU mode, and every error", "why_tests_cant": "Errors are tested for single malformed inputs; no test can show that no other error, and no two with the same text, are ever returned.", "anchors": ["encoding/tpdu/error.go: DecodeError.Error", "encoding/tpdu/error.go: EncodeError.Error", "encoding/tpdu/tpdu.go: TPDU.UnmarshalBinary", "encoding/tpdu/tpdu.go: TPDU.MarshalBinary", "error.go", "encoding/pdumode/pdu.go: UnmarshalHexString"]}
{"id": "C70", "title": "What the other tools print", "statement": "charsets prints for all fourteen languages the locking and the shift table, the character of a septet in the row of its low and the column of its high four bits, and tables that look the same are the same. What smssubmit prints tells the number and the message, what smscounter prints tells every count, and what smsdeliver prints tells the messages and their senders.", "quantifier": "every table, number, message, language and list of arguments", "why_tests_cant": "Only smscounter has tests, of single messages; that no two different results are printed alike is a statement about all pairs.", "anchors": ["cmd/charsets/charsets.go: Display", "cmd/charsets/charsets.go: main", "cmd/smssubmit/smssubmit.go: main", "cmd/smscounter/smscounter.go: Count.String", "cmd/smsdeliver/smsdeliver.go: main"]}
{"id": "C71", "title": "What smsdecode prints is true", "statement": "The dump of every message that decodes has the lines of its type, in order and no others; every flag, number, octet, alphabet, time and duration on them, and every octet of the user data at its place, is that of the message: times to the second with the sign of their zone, flags from their bit of the first octet, numbers with a plus exactly when they are international.", "quantifier": "every argument of smsdecode that decodes, and every message", "why_tests_cant": "The tools have no test of the dump; exchanged labels, a wrong sign or a shifted column would go unnoticed on messages where both values agree.", "anchors": ["cmd/smsdecode/smsdecode.go: main", "cmd/smsdecode/smsdecode.go: dumpTPDU", "cmd/smsdecode/smsdecode.go: dumpDeliver", "cmd/smsdecode/smsdecode.go: dumpVP", "cmd/smsdecode/smsdecode.go: dumpUD", "encoding/tpdu/timestamp.go: Timestamp.String", "encoding/tpdu/dcs.go: DCS.String"]}
{"id": "C72", "title": "Decode only reads the TPDUs", "statement": "Decode gives the text of the TPDUs as they are when it is called, changes none of them and writes no memory that is visible through any other slice of the caller's; this also holds for the TPDUs Segment and Encode made, which share one array.", "quantifier": "every list of TPDUs, whatever arrays and capacities their user data have, and every growth of append", "why_tests_cant": "What append writes depends on the capacity and the neighbourhood in memory of every slice of user data.", "anchors": ["sms.go: Decode", "encoding/ucs2/ucs2.go: Decode", "encoding/tpdu/userdata.go: DecodeUserData"]}
{"id": "C73", "title": "What is read stays when the buffer is used again", "statement": "Unmarshal changes nothing of the caller's, and what it returns has its octets to itself: the buffer it was given, and any other memory that was there before, can be overwritten without changing the TPDU, the TPDU can be changed or appended to without changing the buffer or itself elsewhere, and TPDUs read from one buffer can be decoded together. The same for the PDUs of a modem.", "quantifier": "every memory, slice of octets, TPDU in it, and later contents of the memory", "why_tests_cant": "A test compares results at once; sharing shows only when one of the two is written later.", "anchors": ["sms.go: Unmarshal", "encoding/tpdu/tpdu.go: TPDU.UnmarshalBinary", "encoding/tpdu/tpdu.go: TPDU.decodeUserData", "encoding/tpdu/userdata.go: UserDataHeader.UnmarshalBinary", "encoding/pdumode/pdu.go: PDU.UnmarshalBinary"]}
{"id": "C74", "title": "Exactly the octets of a TPDU are accepted", "statement": "Unmarshal, in either direction, returns a TPDU exactly if the octets are its octets according to a grammar that says field by field what an address, a time, a validity period, a header and user data look like, and returns an error for all others; no octets are those of two TPDUs. The same for the addresses, timestamps, validity periods and headers that can be read on their own. What MarshalBinary writes of the TPDUs of C28 and C29 is in the grammar.", "quantifier": "every list of octets, both directions, and every TPDU", "why_tests_cant": "There are infinitely many inputs to accept and to refuse; a table of tests holds a few of each and cannot show that nothing else is accepted.", "anchors": ["sms.go: Unmarshal", "encoding/tpdu/tpdu.go: TPDU.UnmarshalBinary", "encoding/tpdu/address.go: Address.UnmarshalBinary", "encoding/tpdu/timestamp.go: Timestamp.UnmarshalBinary", "encoding/tpdu/validityperiod.go: ValidityPeriod.UnmarshalBinary", "encoding/tpdu/userdata.go: UserDataHeader.UnmarshalBinary"]}
{"id": "C75", "title": "A TPDU or Encoder made with options has what the options ask", "statement": "tpdu.New, NewDeliver and NewSubmit fail exactly if an option is a message type there is not; else of each kind of option the last one counts (a message type settles direction and indicator, a DCS is also announced in the parameter indicator) and everything no option names is left empty. The same holds of an Encoder's template: the options of NewEncoder and Encode apply in that order to the TPDU of the last WithTemplate, or to an empty one, and a message type there is not is passed over. Every TPDU Encode returns has the addresses, type and other fields so asked for; the package's Encode makes SMS-SUBMITs for the number of its last To. AsSubmit and AsDeliver settle the type, As8Bit and AsUCS2 the alphabet, in which the message is then taken as it is; empty means zero, with addresses without a number whose type octet has its top bit set.", "quantifier": "every list of options, for New, NewEncoder, Encoder.Encode and Encode; every template and message", "why_tests_cant": "Options combine: lists of any length, in any order, with repetitions, at two places.", "anchors": ["encoding/tpdu/tpdu.go: New", "encoding/tpdu/tpdu.go: NewDeliver", "encoding/tpdu/tpdu.go: NewSubmit", "encoding/tpdu/options.go: WithDA", "encode.go: NewEncoder", "encode.go: Encoder.Encode", "options.go: WithTemplate", "options.go: WithTemplateOption"]}
{"id": "C76", "title": "The Collector treats each message as if it were alone", "statement": "What Collect answers to the segments of a message, and what Pipes shows of it, is what a machine would do that is told only of this message's segments, the end of its own time, the removal by its own timer and Close: it refuses numbers that are not 1 to n, repeated ones and all of them once closed, returns all segments in order with the last one missing, and begins anew with a segment that comes between the end of its time and the removal. Nothing another message does, and no other call, changes any of it. Of segments that come more than once the first copies are returned, and the repeated ones refused.", "quantifier": "every history of Collect, Pipes, Close, timers and callbacks, with any messages and any repetition, loss or wrong numbering; every message of it", "why_tests_cant": "The histories are unbounded and interleave any number of messages and timers.", "anchors": ["collect.go: Collector.Collect", "collect.go: Collector.Close", "collect.go: Collector.Pipes", "collect.go: WithReassemblyTimeout"]}
{"id": "C77", "title": "MarshalBinary: which TPDUs are written, and how, and why others are refused", "statement": "TPDU.MarshalBinary writes exactly the TPDUs all of whose fields can be written, and the octets are those of TS 23.040 field by field, with lengths modulo 256. It refuses all others with an error that names the message type and the first field, in the order in which they are looked at, that cannot be written: a number with something that is no digit, an alphanumeric address with a character outside the default alphabet or with what is no UTF-8, a time in a year before 0 or in a zone beyond 79 quarters of an hour, a reserved or negative validity period, a reserved alphabet, UCS-2 user data of odd length, and message types there are not. The same holds of MarshalBinary of addresses, timestamps and validity periods on their own.", "quantifier": "every TPDU with octets where Go has them and septets where the alphabet is the 7-bit one; every address, timestamp and validity period", "why_tests_cant": "There are infinitely many TPDUs to write and to refuse; tests hold a few of each and cannot show that nothing else is refused.", "anchors": ["encoding/tpdu/tpdu.go: TPDU.MarshalBinary", "encoding/tpdu/address.go: Address.MarshalBinary", "encoding/tpdu/timestamp.go: Timestamp.MarshalBinary", "encoding/tpdu/validityperiod.go: ValidityPeriod.MarshalBinary", "encoding/tpdu/userdata.go: UserDataHeader.MarshalBinary"]}
{"id": "C78", "title": "PDU mode: exactly the frames are read, and exactly what is written", "statement": "pdumode.UnmarshalBinary accepts exactly octets that are the length, type and digits of a service centre and a TPDU, or a 0 and a TPDU, and returns these; it refuses all others, which are too short, naming the field that is cut. The hexadecimal forms accept exactly strings of pairs of hexadecimal digits, in upper or lower case, of such octets; they report the first character that is no digit, and else an odd length. MarshalBinary writes the number two digits to an octet, or a 0 if there is none, and refuses exactly numbers with something that is no digit; MarshalHexString does so in lower case. What was read is written and read again as the same, except a type of address without a number.", "quantifier": "every string of octets and characters, and every PDU", "why_tests_cant": "Inputs are unbounded; tests hold two or three.", "anchors": ["encoding/pdumode/pdu.go: UnmarshalBinary", "encoding/pdumode/pdu.go: UnmarshalHexString", "encoding/pdumode/pdu.go: PDU.MarshalBinary", "encoding/pdumode/pdu.go: PDU.MarshalHexString", "encoding/pdumode/smscaddress.go: SMSCAddress.UnmarshalBinary", "encoding/pdumode/smscaddress.go: SMSCAddress.MarshalBinary"]}
{"id": "C79", "title": "Unmarshal names the first field that cannot be read, the octet and the reason", "statement": "sms.Unmarshal and sms.Unmarshal with AsMO return an error exactly for octets that are not those of a TPDU. It is a DecodeError whose field is the first, in the order of 3GPP TS 23.040, that cannot be read behind fields that all can, with the part of it (udl, udh.ie, udh.ied, sm, alphabet, enhanced and so on), whose offset is where that part begins in the octets given, and whose cause is the reason: too few octets, more octets than announced, an octet that is no pair of digits, a digit missing or a fill missing, a septet that is no character, an odd number of octets of UCS-2, octets out of use that are not 0, a reserved format or alphabet, or a reserved message type. The fields on their own - Address, Timestamp, ValidityPeriod and UserDataHeader - report the same part, offset within the field, and reason.", "quantifier": "every string of octets, either direction", "why_tests_cant": "Tests try a handful of cut and corrupted TPDUs; the first of several faults has to be found, and its offset to be right, at every place in octets of any length.", "anchors": ["sms.go: Unmarshal", "encoding/tpdu/tpdu.go: TPDU.UnmarshalBinary", "encoding/tpdu/tpdu.go: decodeUserData", "encoding/tpdu/error.go: NewDecodeError", "encoding/tpdu/address.go: Address.UnmarshalBinary", "encoding/tpdu/timestamp.go: Timestamp.UnmarshalBinary", "encoding/tpdu/validityperiod.go: ValidityPeriod.UnmarshalBinary", "encoding/tpdu/userdata.go: UserDataHeader.UnmarshalBinary"]}
{"id": "C80", "title": "What Decode returns, for any TPDUs and options", "statement": "sms.Decode returns exactly this: TPDU by TPDU, 8-bit user data as it is; UCS-2 as the UTF-8 form of its characters, a half of a surrogate pair without the other becoming U+FFFD together with the unit behind it; anything else as the characters of its septets in the tables of the languages that the last elements 25 and 24 of the header name, if these are on offer (all of them if no option says otherwise), and else the default ones. A half pair at the end of a TPDU is put in front of the user data of the next. The only errors are an odd number of octets of UCS-2 and a half pair at the end of the message, which is in the error; it panics exactly if a nil pointer comes before any error. DecodeUserData does the same for one user data, and returns the text before a half pair together with the error. Without 8-bit TPDUs the text is valid UTF-8.", "quantifier": "every list of TPDUs, user data, headers and options", "why_tests_cant": "Text, headers and ways to cut are unbounded; tests decode a few messages.", "anchors": ["sms.go: Decode", "encoding/tpdu/userdata.go: DecodeUserData", "encoding/ucs2/ucs2.go: Decode", "encoding/gsm7/gsm7.go: Decoder.Decode"]}
{"id": "C81", "title": "The TPDUs Segment returns, for any template and message", "statement": "tpdu.Segment returns exactly this: nothing for an empty message; one TPDU, the template with the user data and a reference, for what fits behind the header of the template; else the message cut into blocks, each as full as the room left by the header with a concatenation element in it allows, but for an unescaped escape or the first half of a surrogate pair at the end of a block, which goes to the next. The room follows from the octets of the type of TPDU and its alphabet. Each TPDU is the template with its block, its reference and the element with the reference, the number of blocks and its place.", "quantifier": "every template of either direction, message, and values of the counters", "why_tests_cant": "Messages, headers and counters are unbounded; the tests have a table of messages.", "anchors": ["encoding/tpdu/tpdu.go: TPDU.Segment, TPDU.UDBlockSize, chunk, chunk7Bit, chunk8Bit, chunkUCS2, newInfoElement, newInfoElement16bit"]}
{"id": "C82", "title": "What Encode returns, for any message, options and history", "statement": "Encoder.Encode returns exactly this. If the data coding scheme of the template names 8-bit data or UCS-2, the octets of the message are cut as they are. Else the characters of the message, U+FFFD standing for each octet where there is no UTF-8 form, are written in the default tables if these have them all, else with the first registered locking table that does, else the first shift table, else the first language whose both tables do, else in UCS-2; the data coding scheme is given that alphabet, and for national tables a header naming them replaces that of the template. Each TPDU has the next message reference, and each message of several parts the next concatenation reference; the counters of the encoder advance by that much and nothing else of it changes. The only error is a data coding scheme that cannot name the alphabet. Encode does the same with a new encoder.", "quantifier": "every encoder, message, list of options, and values of the counters", "why_tests_cant": "Messages, options and histories are unbounded; tests encode a few dozen messages.", "anchors": ["encode.go: Encode, Encoder.Encode, NewEncoder", "encoding/tpdu/userdata.go: EncodeUserData", "encoding/tpdu/dcs.go: DCS.WithAlphabet", "encoding/gsm7/gsm7.go: Encoder.Encode", "encoding/ucs2/ucs2.go: Encode"]}
{"id": "C83", "title": "What UnmarshalBinary of a part says and leaves, also when it fails", "statement": "UnmarshalBinary of an address, a user data header, a validity period or the address of a service centre reports a number of octets that is at most the number there are, and when it fails the value it was called on, be it one of these, a timestamp or a PDU, is left as it was. Exactly: on success the number is the length of what was read (C77, C78) and only what that holds is replaced; on failure (C79, C78) the number is none, all, those of the part or the place of the error, depending on the reason.", "quantifier": "every sequence of octets and every value of the receiver", "why_tests_cant": "The number and the receiver after a failure depend on where the octets fail, which ranges over all octet sequences; tests fail a few of them on fresh receivers.", "anchors": ["encoding/tpdu/address.go: Address.UnmarshalBinary", "encoding/tpdu/timestamp.go: Timestamp.UnmarshalBinary", "encoding/tpdu/validityperiod.go: ValidityPeriod.UnmarshalBinary", "encoding/tpdu/userdata.go: UserDataHeader.UnmarshalBinary", "encoding/pdumode/smscaddress.go: SMSCAddress.UnmarshalBinary", "encoding/pdumode/pdu.go: PDU.UnmarshalBinary, PDU.UnmarshalHexString", "encoding/semioctet/semioctet.go: Decode"]}
{"id": "C84", "title": "smsdeliver accounts for every TPDU it is given", "statement": "smsdeliver logs, prints and ends as a program would that puts parts of messages on one heap. An argument without octets ends it, with status 1; a TPDU that cannot be read is logged and passed over; one that is no part of a longer message is printed at once; a part with a number outside 1 to n is refused, and so is one that is on the heap already; a part that is the last of its message - the same sender, reference and number of parts - takes the others off the heap, and the message is printed with the sender's number, or the reason why it has no text; any other part goes on the heap. Parts that are not DELIVER TPDUs share one pile instead, by C86, which is printed, reported and, where a place or a part of it is missing, ends the command in a crash with status 2. In the end, with status 0, each message with parts on the heap is reported once, by its sender, reference and number of parts, with <nil> exactly for the parts that have not come, of which there is one at least. The command always ends, with the same status in whatever order the map is printed.", "quantifier": "every list of arguments, with and without -p; every order in which the map is printed and every place of the TPDUs in memory", "why_tests_cant": "What an argument leads to depends on all arguments before it, in any order, number and mixture of messages; tests run no command.", "anchors": ["cmd/smsdeliver/smsdeliver.go: main", "collect.go: Collector.Collect, Collector.Pipes, pduKey", "sms.go: Unmarshal, Decode"]}
{"id": "C85", "title": "The command lines of the tools and how they end", "statement": "Each tool reads its command line by one grammar: words of one or two minus signs, the name of a flag, and, unless it is a switch, its value behind an equals sign or as the next word, up to two minus signs or the first word that is no flag; the last value of a flag counts. Truth values and integers are written as in Go source, integers within 64 bits. An unknown or malformed flag, or one without a valid value, gives status 2; -h and -help give status 0; neither writes to standard output. Else smsdecode writes the dump of its one argument with status 0, or nothing with status 1; smscounter writes the count of its message, smssubmit the TPDUs of its message for its number, both with status 0, or nothing with status 1 if they are not given; smsdeliver does with the other words what C84 says. So a status of 0 means that the work was done.", "quantifier": "every list of words on the command line", "why_tests_cant": "Command lines of any length with any words; tests run no command.", "anchors": ["cmd/smsdecode/smsdecode.go: main", "cmd/smsdeliver/smsdeliver.go: main", "cmd/smssubmit/smssubmit.go: main", "cmd/smscounter/smscounter.go: main"]}
{"id": "C86", "title": "What becomes of parts that are neither SUBMIT nor DELIVER", "statement": "A Collector puts all multi-part TPDUs that are neither SUBMIT nor DELIVER on one pile, whatever message they are of, and shows it under the empty key; what else is collected makes no difference to them. The first makes a pile of as many places as it names. A later one goes to the place it names; it is rejected if the place is taken or its number is not one of 1 to the total it names, and the call panics if the pile has no such place. Each that is kept is answered with the error for its type, except that the whole pile, with nil in the empty places, is returned without error and given up once the parts in it are as many as the last one names. A part that comes when the time of the pile is up begins a new one. After Close all are refused.", "quantifier": "every history of Collect, Close, Pipes and timer events, with TPDUs of any type", "why_tests_cant": "Histories of any length; the outcome depends on the order in which parts of unrelated messages arrive.", "anchors": ["collect.go: Collector.Collect, pduKey, Collector.Pipes"]}
{"id": "C87", "title": "The reassembly timeout is measured from the last segment that was kept", "statement": "If timers do not fire before their time, nothing is given to the expiry handler, and nothing vanishes from Pipes unless Collect returns it, before the timeout has passed since it was collected; and if each segment of a message comes less than the timeout after the last one of it that was kept, the answers to its segments are those of a Collector without a timeout. In particular, if until Close the segments of a message come once each, in any order, each less than the timeout after the one before, no timer of it fires and the last returns the whole message in its order. If in addition timers fire and take the lock at their time, the answers are those of a machine with a clock: a segment that comes when the timeout or more has passed since the last one of its message that was kept begins anew, a duplicate does not extend the time; and at each Collect every pipe has a segment collected less than the timeout before.", "quantifier": "every history of Collect, Close, Pipes and timer events with non-decreasing times, every timeout, and every message", "why_tests_cant": "Timers, callbacks and calls interleave in unboundedly many ways; tests can only sleep and hope.", "anchors": ["collect.go: Collector.Collect, WithReassemblyTimeout"]}
{"id": "C88", "title": "Values print under their names", "statement": "The String methods of SmsType, MessageType, ValidityPeriodFormat and EnhancedValidityPeriodFormat give each defined value the name of its own and every other value the name Unknown; SmsType.MTI and SmsType.Direction of a type are those that the TPDUs of that type have. Timestamps of any year and zone print alike exactly if they show the same date and time of day, to the second, and zones equal to the minute; for the years 1 to 9999 and zones of whole minutes below 100 hours the text is that date, time and zone.", "quantifier": "every value, defined or not; every TPDU; every time.Time", "why_tests_cant": "All integers; the names are scattered over switches.", "anchors": ["encoding/tpdu/tpdu.go: SmsType.String, SmsType.MTI, SmsType.Direction, MessageType.String", "encoding/tpdu/validityperiod.go: ValidityPeriodFormat.String, EnhancedValidityPeriodFormat.String", "encoding/tpdu/timestamp.go: Timestamp.String"]}
{"id": "C89", "title": "USSD packing follows the standard", "statement": "Pack7BitUSSD lays the septets out and ends the last octet as 3GPP TS 23.038 6.1.2.3.1 says (seven spare bits become a carriage return, a carriage return that ends on an octet boundary is followed by another, all other spare bits are zero), and Unpack7BitUSSD gives back the septets of octets laid out that way.", "quantifier": "every non-empty septet string and every number of fill bits from 0 to 6", "why_tests_cant": "All strings of all lengths; the faulty ones depend on the length modulo eight and the last three septets.", "anchors": ["encoding/gsm7/7bit.go: Pack7BitUSSD, Unpack7BitUSSD"]}
{"id": "C90", "title": "The loops of the README", "statement": "The loop by which the README sends messages with an Encoder, and the one by which it receives them with Unmarshal, Collect and Decode, work together: the messages handled are those sent, in their order, however the TPDUs of each are ordered on the way. What is sent are SUBMITs, the documented default. The receiving loop does not panic, whatever it receives.", "quantifier": "every sequence of messages, of any number; every template; every order of the TPDUs of a message; every sequence of octets received", "why_tests_cant": "The counters and the Collector keep state over the whole sequence, and any octets may be received.", "anchors": ["internal/readme/readme.go: encoder", "internal/readme/readme.go: collect", "encode.go: NewEncoder", "README.md"]}
{"id": "C91", "title": "Messages that arrive in each other's midst", "statement": "If the messages of one or several senders, each sent through an Encoder, arrive at one Collector with their TPDUs mixed in any way, some of them lost, then the messages of which all TPDUs arrive are returned, each once, when its last TPDU arrives and with its own text, and nothing else is.", "quantifier": "every number of senders with different addresses, and of messages; every template; every order in which the TPDUs of all messages arrive, and every choice of those that are lost", "why_tests_cant": "There are more orders than can be listed, and the reference number of a message has eight bits: it takes hundreds of messages before it comes again.", "anchors": ["encode.go: Encoder.Encode", "encoding/tpdu/tpdu.go: TPDU.Segment", "collect.go: Collector.Collect", "internal/readme/readme.go: collect"]}
{"id": "C92", "title": "Octets that were written are their receiver's own", "statement": "MarshalBinary of a TPDU, and of a PDU of the modem, only reads: no array that was there before changes anywhere, whether it fails or not. The octets it returns share no memory with the TPDU or anything else the caller has, so that changing the one does not change the other, and calling it again returns the same octets in other memory.", "quantifier": "every TPDU of every type, its header elements and user data anywhere in memory, sharing it in any way, with any spare capacity; every way for append to grow an array", "why_tests_cant": "Whether two slices share an array, and what lies behind their ends, is not visible in the results a test compares.", "anchors": ["encoding/tpdu/tpdu.go: TPDU.MarshalBinary", "encoding/tpdu/tpdu.go: encodeUserData", "encoding/tpdu/userdata.go: UserDataHeader.MarshalBinary", "encoding/gsm7/7bit.go: Pack7Bit", "encoding/pdumode/pdu.go: PDU.MarshalBinary"]}
{"id": "C93", "title": "A decoded text is its receiver's own", "statement": "DecodeUserData only reads, and the text it returns shares no memory with the user data it is from, nor with anything else the caller has.", "quantifier": "every user data anywhere in memory, every header, alphabet and set of options; every way for append to grow an array", "why_tests_cant": "Whether two slices share an array is not visible in the results a test compares.", "anchors": ["encoding/tpdu/userdata.go: DecodeUserData"]}
{"id": "C94", "title": "A reference number that comes again does not mix two messages, given a timeout", "statement": "With a reassembly timeout, a message whose segments come once each, each less than the timeout after the one before and the first of them the timeout or more after anything with its reference number, is returned whole and with its own segments, whatever of an earlier message with that number was left. What Collect returns was all collected within less than n-1 times the timeout, n being the number of segments, so that messages with the same reference number that are that far apart are never mixed.", "quantifier": "every history of Collect, Pipes, timer events and other messages' segments with non-decreasing times, in which timers fire and take the lock at their time; every timeout, every message, every order of its segments", "why_tests_cant": "A reference number comes again after 256 messages, and whether the rest of the first one is still there depends on when the timers ran.", "anchors": ["collect.go: Collector.Collect", "collect.go: WithReassemblyTimeout"]}
{"id": "C95", "title": "Segments that arrive more than once", "statement": "What arrives of a message falls into rounds, in one way only: a round ends with the segment that completes it. Collect hands the message out at the end of each round, from the first copies in it, and at no other time. So it is handed out if and only if each of its segments comes, never more often than the rarest of them, and exactly once if one of them comes once. If the copies are of the same TPDUs, it is these that are handed out each time, and the text is read from them.", "quantifier": "every history of Collect, Pipes, timer events and Close, with any messages, in which segments are repeated any number of times, in any order, also with numbers there are not; every message", "why_tests_cant": "A network that repeats segments makes a stream of any length, and whether a late copy is refused or begins another round depends on all that came before.", "anchors": ["collect.go: Collector.Collect", "collect.go: Collector.Pipes", "sms.go: Decode"]}
{"id": "C96", "title": "References of 8 and of 16 bits", "statement": "Messages of one sender are kept apart if the parts of one are numbered by elements with an 8-bit reference and those of the other by elements with a 16-bit reference.", "quantifier": "every history of Collect, Close, Pipes and timer events, every two parts that are returned together or given together to the expiry handler", "why_tests_cant": "Which parts are together depends on all that was collected before, and the numbers meet only by chance.", "anchors": ["collect.go: Collector.Collect", "encoding/tpdu/userdata.go: UserDataHeader.ConcatInfo"]}
{"id": "C97", "title": "Calls of Encode at the same time share the counters", "statement": "Calls of Encode on one Encoder that run at the same time each return what they would alone, but for message references and concatenation reference numbers: between them the TPDUs have the message references the counter gives out next, each once and in order within a message, and each message of several TPDUs has one reference number of its own in all its parts, so that up to 256 such calls get different ones. No call waits for another, and each message decodes to its text.", "quantifier": "any number of calls, every message and options of each, every interleaving of the calls at their uses of the counters", "why_tests_cant": "Which call gets which number depends on the interleaving, and a test run sees one of them.", "anchors": ["encode.go: Encoder.Encode", "encode.go: Counter.Count", "encoding/tpdu/tpdu.go: TPDU.Segment", "encoding/tpdu/tpdu.go: WithMR", "encoding/tpdu/tpdu.go: WithConcatRef"]}
{"id": "C98", "title": "Every text arrives", "statement": "Up to 256 messages of up to 255 TPDUs each, encoded with one Encoder by calls that run in any interleaving, sent, received in any order, mixed with each other, and given to one Collector that is not closed and no timer of which fires on them, as none does if timers are not early and the parts of each message come less than the timeout after each other: Collect never fails and returns each message exactly once, whole and in the order of its parts, and nothing else; and what it returns decodes to the text that was encoded.", "quantifier": "every number of messages up to 256, all texts and templates that C41 allows, every interleaving of the calls of Encode, every order of arrival, every Collector configuration, all other events in between", "why_tests_cant": "The number of interleavings and orders of arrival is astronomical, and which numbers messages share depends on both.", "anchors": ["encode.go: Encoder.Encode", "encoding/tpdu/tpdu.go: TPDU.Segment", "collect.go: Collector.Collect", "sms.go: Decode", "sms.go: Unmarshal"]}
{"id": "C99", "title": "An unreliable network never garbles a text", "statement": "Up to 256 messages of up to 255 TPDUs each, encoded with one Encoder by calls that run in any interleaving, and sent. Whatever of the received TPDUs is given to one Collector, in any order and any number of times, whatever its timers do and even if it is closed: all that Collect returns are these messages, each whole and in order, and it decodes to its text; each TPDU given is in at most one message returned; a message of which every TPDU is given is returned at least once if no timer fires and Close is not called; and Collect does not panic and refuses nothing but repeated TPDUs, and all once it is closed.", "quantifier": "every number of messages up to 256, all texts and templates that C41 allows, every interleaving of the calls of Encode, every loss, repetition and order of arrival, every Collector configuration, all timer events and calls of Pipes and Close", "why_tests_cant": "It is a claim about everything that can be returned after any loss, repetition, order and timing.", "anchors": ["encode.go: Encoder.Encode", "encoding/tpdu/tpdu.go: TPDU.Segment", "collect.go: Collector.Collect", "collect.go: Collector.Close", "sms.go: Decode", "sms.go: Unmarshal"]}
{"id": "C100", "title": "A Collector made with options", "statement": "Of the options of NewCollector the last WithReassemblyTimeout counts, for the timeout and the handler. Without one, or with a timeout of 0, the handler is never called and nothing that Collect took is dropped: it is returned or still held. With any other timeout every incomplete message of an open Collector has a timer, which removes it and calls that handler, if there is one, with what there is of it. Whether there is a handler makes no difference to what any call returns. With a timeout below 0, if timers are on time, Collect never returns a message of several segments.", "quantifier": "every list of options, every history of Collect, Pipes, Close and timers", "why_tests_cant": "The claims are about all histories, and the absence of an effect in them.", "anchors": ["collect.go: NewCollector", "collect.go: WithReassemblyTimeout", "collect.go: Collector.Collect"]}
