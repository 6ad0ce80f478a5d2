# Formal model of warthog618/sms in Rocq (Coq 8.16.1)

## Approach

The Go code is modelled function by function as total, computable Gallina
functions over `Z` (octets, septets, runes, ints), `list`, `option` and
records.  Outcomes of Go functions are values of

    res A ::= Ok a | Err e | Panic | Diverge

* `Err` carries the error the Go code returns (sentinels, wrapped decode /
  encode errors with field path and offset).
* `Panic` is produced by every slice index, slice expression or integer
  division of the Go code whose operand is out of range.
* `Diverge` is produced when the fuel given to a Go `for` loop runs out; the
  theorems show it does not (or, in the refutations, that no fuel suffices).

Goroutines and timers of the `Collector` are a labelled transition system: the
steps are the critical sections of the mutex, the firing of a timer, and the
call of the expiry handler; theorems quantify over every sequence of steps.
That a critical section may be taken as one step is not assumed: in
`CollectorLock.v` the goroutines take the mutex and go on statement by statement,
timers fire in between, and C65 shows that every such execution is one of the
first system.

## Layout of rocq/theories

| files | content |
|---|---|
| `GoBase.v` | result monad, errors, slice/index semantics |
| `*.v` model files (`Bcd`, `Semioctet`, `SevenBit`, `Utf`, `Ucs2`, `CharsetTables`, `Charset`, `Gsm7`, `Dcs`, `FirstOctet`, `Address`, `GoTime`, `GoFloat`, `ValidityPeriod`, `UserData`, `Tpdu`, `Segment`, `Sms`, `Collector`, `CollectorLock`, `PduMode`, `Cmd`, `Print`, `PrintTools`, `ErrorText`, `TpduLeft`, `Gsm7Options`, `LazyTables`, `Heap`, `HeapSegment`, `HeapEncoder`, `HeapDecode`, `HeapRead`, `HeapWrite`, `AddressOptions`, `TpduError`, `PartsLeft`, `DeliverReport`, `CmdLine`, `Readme`, `SharedCount`) | the model: definitions only, each citing file and lines |
| `Spec*.v` | small independent specifications used by the statements |
| `*Proofs.v` | lemmas |
| `P_*.v` | the property theorems, one section per property, with `Print Assumptions` and a concrete instance beside each |

## Plan per property

| id | modelled | how proved |
|---|---|---|
| C01, C02 | Pack7Bit/Unpack7Bit octet by octet with residual bits | bit-stream spec (`bits_lsb`), induction with the residue invariant |
| C03 | Pack7BitUSSD/Unpack7BitUSSD | expected false for some inputs: refutation + exact characterisation of the good inputs |
| C04 | semioctet Encode/Decode with explicit destination length | induction two digits at a time |
| C05 | the four bcd functions | finite sweep lifted by `forallb_forall` for octets, arithmetic for ints |
| C06–C08 | all charset tables (generated from the Go source by `tools/gen_charsets.py`), table builders, gsm7 Encode/Decode, Go's UTF-8 decoding | computed table checks lifted to universally quantified lemmas; induction over runes. Expected false for U+001B: refutation + proof without it |
| C09, C10, C42 | ucs2 + utf16 + the dangling surrogate loop of sms.Decode | induction over code units |
| C11, C12 | EncodeUserData/DecodeUserData | case analysis over the selection, using C06/C09 |
| C13–C19 | Segment, UDBlockSize, chunk* with index semantics | loop invariants; optimality by greedy stays-ahead. C16 (>255 segments) and C19 (tiny blocks) expected false in general: refutations + partial theorems |
| C20–C22 | Address, SMSCAddress, pdumode, hex | composition of the codecs |
| C23 | Timestamp over a proleptic Gregorian calendar model of time.Time | 400-year sweep lifted by periodicity |
| C24, C25 | ValidityPeriod | integer arithmetic on nanoseconds; 5-minute value expected false |
| C26–C31, C46 | UDH, user data, all six TPDU types, marshal and unmarshal | symbolic execution with index lemmas; FCS=0 reports and COMMAND with UDH expected false |
| C32, C33 | DCS, first octet, PI | 256-value sweeps |
| C34–C40, C48 | Collector as transition system | inductive invariant over all traces; unsupported types expected false |
| C41, C43, C45, C49 | Encoder | composition; interleaving semantics for the counter |
| C44, C47, C50 | IsCompleteMessage, options, smscounter | induction / arithmetic |
| C51 | smsdecode, as far as it can fail or panic | case analysis, from C30 and C56 |
| C52, C53 | smsdeliver as a loop over its arguments with a Collector | composition of C41 with the loop; C53 expected false because of C40 |
| C54 | smssubmit | composition of C41 with smsdecode |
| C55 | IE, IEs, ConcatInfo | induction over the header |
| C56 | Unmarshal | inversion of each decoder |
| C57 | Unmarshal then MarshalBinary then Unmarshal | each decoder returns values the round-trip theorems cover; `again` lists the exceptions, and all of them are: what MarshalBinary wrote is compared with the grammar of C74 field by field (`AgainProofs.v`) |
| C58 | Segment on slices that share arrays: `Heap.v` gives slices, append (with any growth) and slice expressions, `HeapSegment.v` runs Segment on them | a frame lemma for each operation; the only old cell written is the one just behind the template's header |
| C59 | the same | refinement to `Segment.v`, so that all other theorems about Segment hold of the values in memory; distinct arrays for the headers, disjoint cuts for the user data |
| C60 | Encode as steps on the shared option slice, `HeapEncoder.v`; a schedule is any list of call numbers | invariant over schedules: each call holds either the Encoder's own slice or an array nobody else holds |
| C61 | the tables of all languages | entry-by-entry comparison with `SpecAlphabet.v`, where the standard's Latin alphabets are written out in UTF-8 and with `SpecScripts.v`, where the nine scripts of India are given by one layout over their parallel Unicode blocks and Urdu is written out; expected false for Hindi |
| C62 | options and methods of the gsm7 coders, `Gsm7Options.v` | induction over the options |
| C63 | the package variables as references to maps, calls as steps, `LazyTables.v` | invariant over all event sequences: every map belongs to one variable and holds its table unless its language was written to; races: who is about to write the variable |
| C64 | UnmarshalBinary on a receiver with arbitrary contents, `Tpdu.v` | the run on the used and on a new receiver followed side by side (`ReuseProofs.v`) |
| C65 | goroutines that share a Collector, `CollectorLock.v`: mutex, statement-sized steps, timers that fire during a call | forward simulation into the sequential Collector with linearization points (`LockProofs.v`), a rank for progress; races: the variables each step uses (`SpecRace.v`), disjoint by the invariant |
| C66 | `vp_marshal` with the float64 arithmetic of `GoFloat.v` | error bound of two roundings, by integer inequalities; then the round trip of C25 |
| C67 | UnmarshalBinary with the receiver kept on error, `TpduLeft.v` | each type as a sequence of field readers; induction over the readers, each of which looks at nothing beyond what it takes (`LeftProofs.v`) |
| C68 | the dump of smsdecode, with the parts of fmt, time and encoding/hex it uses, `Print.v` | each line or block of lines is injective and self-delimiting; the address is found as what precedes the last line that begins with the next label (`PrintProofs.v`); what Unmarshal returns can be printed (`DumpProofs.v`) |
| C69 | the Error methods, with the verbs of fmt they use, `ErrorText.v` | induction over the error: each text is split at the first character its front cannot contain (`ErrorTextProofs.v`); every function that fails is followed down to the error it wraps (`ErrorsProofs.v`) |
| C70 | what charsets, smssubmit, smscounter and smsdeliver write to standard output, `PrintTools.v` | cells and lines are self-delimiting; smssubmit by C54 (`ToolsProofs.v`) |
| C71 | the same dump | each text is read back by `SpecShown.v`: digits, calendar days counted from year 0, columns of the octets (`ShownProofs.v`) |
| C72 | Decode on slices of a heap, `HeapDecode.v` | invariant of the loop over the TPDUs: what append wrote lies behind user data already read, or was there before (`HeapDecodeProofs.v`) |
| C73 | UnmarshalBinary on slices of a heap, `HeapRead.v` | each function is that of `Tpdu.v` with the copies put into new arrays; the arrays are numbered in the order they are made (`HeapReadProofs.v`) |
| C74 | Unmarshal as in C20 to C29, against the grammar `SpecWire.v` | each reader takes exactly one part of the grammar: both directions by cases over the reader and by inversion of the grammar, induction over elements, digits and septets (`WireProofs.v`) |
| C75 | options of New, NewEncoder and Encode, `Sms.v` | induction over the options from the end, one step per option; then C17 for the TPDUs of Encode |
| C76 | `Collector.v`, and in `SpecAlone.v` a machine for one message | refinement: a simulation between the Collector's state and the machine's, kept by every step; what a step means for the message is read off the history (`view`) |
| C77 | MarshalBinary as in C01 to C14, against `SpecMarshal.v` | each field meets its description: every outcome described is the one computed and one is always described (`MarshalProofs.v`); then by cases over the message types (`MarshalTpdu.v`) |
| C78 | `PduMode.v`, hexadecimal of `Utf.v`, against `SpecPdu.v` | as C74 and C77: every outcome described is the one computed, and one is always described; induction over octets and pairs of characters (`PduExact.v`) |
| C79 | unmarshalling as in C01 to C14, against `SpecRefuse.v` | each field: every fault described is the one computed, and one is described whenever it cannot be read (`RefuseProofs.v`, `RefuseParts.v`); then by cases over the message types (`RefuseTpdu.v`, `RefuseTypes.v`) |
| C80 | `Sms.decode`, `UserData.decode_user_data`, against `SpecDecode.v` | every outcome described is the one computed, and one is always described: induction over units two by two, and over the TPDUs (`DecodeProofs.v`) |
| C81 | `Segment.segment` against `SpecBlocks.v` | each loop of chunk is one loop with a function that moves the cut; induction over the blocks in both directions (`BlocksProofs.v`) |
| C82 | `Sms.encoder_encode`, `encode`, against `SpecEncode.v` and `SpecBlocks.v` | both directions: the characters by induction over the octets, the choice as the first of a list, the template by a sweep over data coding schemes (`EncodedProofs.v`) |
| C83 | `PartsLeft.v`: the same methods as C77-C79, with receiver and number also on failure, against `SpecPartsLeft.v` | dropping both gives the functions of C77-C79; the number by induction over the octets (`PartsLeftProofs.v`) |
| C84 | `DeliverReport.v`: standard output and exit status of smsdeliver with the report of incomplete messages, against the program of `SpecDeliver.v`, which has a heap of DELIVER parts and one pile of others instead of keys and pipes | simulation, from the one-message machine of C76 for every message at once and the pile of C86 (`DeliverProofs.v`); completeness by counting the numbers |
| C85 | `CmdLine.v`: the main functions with the package flag as far as they use it (flag.Parse, strconv.ParseBool, strconv.ParseInt with base 0), standard output and exit status; `SpecCmdLine.v`: a grammar of command lines and of integers | the parser accepts exactly the grammar, by induction both ways (`CmdLineProofs.v`); then case by case, with C68, C50, C84 and totality of Encode for smssubmit |
| C86 | `Collector.v`; `SpecOdd.v`: a machine with one pile of places that knows nothing of messages, keys and timers | simulation of the pile by the pipe with the empty key (`OddProofs.v`), with the invariant that pipes with other keys hold parts of one message; the frame lemma of C34 for steps that do not concern the pile |
| C87 | `Collector.v`; `SpecClock.v`: histories with times, timers that are not early or on time, a machine with a clock for one message | invariant that the timer of a pipe was started when its last segment was collected (`ClockProofs.v`); simulation of the machine with a clock by that of C76, which agree until the time is up |
| C88 | the String methods of `Print.v`, `st_mti`, `st_direction`; `ts_string` | cases; injectivity of literals; the text of a time is parsed back, from the front up to the zone and the zone from its end |
| C89 | `pack7bit_ussd`, `unpack7bit_ussd` against `ussd_wire` of `SpecUssdBits.v` (bits of the standard) | the last octet as a function of the last three septets, for each number of spare bits |
| C90 | the loops `encoder` and `collect` of internal/readme, `Readme.v` | induction over the messages; each by C41, from a Collector that holds nothing, which C36 gives by counting; the zero time stamp by commuting with another time stamp |
| C91 | the loops of C90 with a schedule of arrivals, `SpecStream.v` | the machine of C76 for each message as an invariant of the loop; references differ within 256 messages, by counting |
| C92 | the functions that write, on slices that share memory (`HeapWrite.v`, on `Heap.v`) | each append is to an array made in the call; the values by simulation of Tpdu.v |
| C93 | DecodeUserData on slices that share memory (`HeapWrite.v`) | by cases on the alphabet; a counterexample for 8-bit data |
| C94 | the machine with a clock of C87, no new model | an invariant of that machine: what it holds was collected within less than one timeout for each segment; the first segment after a pause finds it empty |
| C95 | no new model; a specification of rounds | the machine of C76 for one message: what it holds is the first copies since the last round; counting for the bound |
| C96 | no new model | by the parts of C35 having one reference, and C55 on the two kinds of elements; C96_joined from C34 |
| C97 | SharedCount.v: a call of Encode as steps, each up to and including its next Count | invariant: each call has taken a list of positions of each counter, ascending, and the positions of all calls are a permutation of those given out; each call's TPDUs are those Segment makes with the numbers at its positions |
| C98 | composition of `SharedCount.v`, `Tpdu.v` and `Collector.v` | each received TPDU belongs to the class of its reference number (C97_distinct), the results of Collect are a permutation of those of the classes, and each class is one message of C41; C98_in_time takes a history with times, and no timer fires by C87_no_timer |
| C99 | as C98, with any history | a part of a message of the class of its reference number can only be the TPDU sent with that number (C97_distinct), so C95_same and C95_at_least_once apply to each message; at most one by C36; the errors are those of the machine of C76 |
| C100 | `CollectorOptions.v`: the options, and the fields they set | the last option by list induction; the rest from the invariant of the Collector (no timers without a timeout, a timer for each pipe with one), C36, and C87_not_kept for negative timeouts |

## Trusted base

* Coq 8.16.1: the kernel (including the `vm_compute` conversion used for the
  finite sweeps; `vcheck` re-checks everything with `coqchk`, which does not use
  the VM).
* `Print Assumptions` stands beneath every property theorem.  Each one prints
  "Closed under the global context": no axiom of the standard library is used
  and none is added.  `vcheck` lists axioms of `Coq.ssr.ssrunder.Under_rel`;
  they come with loading `Lia`/ssreflect library files and no theorem here
  depends on them.
* The model files (listed above).  Every definition cites the lines it models.
  `tools/citations.py` checks that the cited files and lines exist and name the
  symbol.
* `tools/gen_charsets.py`, which turns the Go character tables into
  `CharsetTables.v`.  It is a text transformation and can be re-run and compared
  with the committed file.
* The descriptions of Go itself and of its standard library that the model
  relies on: slices and maps as lists, `utf8`/`utf16` conversion, `encoding/hex`,
  `time.Date`/`Year`/`Month`/..., `time.AfterFunc`/`Timer.Stop`, `fmt` verbs,
  `Duration.String`, `hex.Dump`, `strings.TrimSpace` (`GoBase.v`, `Utf.v`,
  `GoTime.v`, `Collector.v`, `Print.v`).
* The memory model `Heap.v`: arrays, slices with offset, length and capacity,
  append with unspecified growth.  It is used for Segment, the options of the
  Encoder, Decode, reading and writing (C58-C60, C72, C73, C92, C93); elsewhere
  slices are values.
* The spec files: `Spec*.v` are what the statements mean.

The model is a transcription, and nothing here proves that it transcribes the
code.  `Vectors.v` tests it: `tools/vectors.py` reads the tables of the
project's own unit tests (`*_test.go`) and writes each row as an `Example` about
the model, 638 of them.  They are tests of the model, not proofs, and no
property theorem uses them.

### Modelled

| /repo | model |
|---|---|
| encoding/bcd | all of it |
| encoding/semioctet | all of it |
| encoding/gsm7/7bit.go | all of it |
| encoding/gsm7/gsm7.go | all of it |
| encoding/gsm7/charset | all tables, their generators and their lazy construction |
| encoding/ucs2 | all of it |
| encoding/tpdu | addresses, DCS, first octet, PI, timestamps, validity periods, user data and headers, six TPDU types in both directions, segmentation, TPDU options, error values with field path and offset |
| encoding/pdumode | all of it |
| internal/readme | the loops that send and receive messages |
| sms.go, encode.go, options.go, collect.go, error.go | all of it |
| cmd/smscounter, cmd/smsdecode, cmd/smssubmit, cmd/smsdeliver | the main functions from the command line to standard output and exit status, and what smsdeliver logs; not usage texts |

### Not modelled

* The usage texts of the tools, and the prefixes of log lines. The package flag of
  the Go library is modelled (as of Go 1.15) as far as the tools use it.
* `internal/readme` (compiled snippets of the README) other than its two loops (C90).
* What a failed call leaves behind in its receiver, other than the UnmarshalBinary
  methods (C67, C83).
* The Go memory model.  Steps interleave but each is atomic, which it promises for
  programs without data races (shown for the Collector, `C65_no_race`): the option slice of
  the Encoder in `HeapEncoder.v`, its counters in `SharedCount.v`, the lazily built tables in
  `LazyTables.v` (elsewhere the tables are constants), and the statements of the
  Collector in `CollectorLock.v`.
* Wall-clock time.  A `Collector` timer may fire at any step after it is
  started, which covers every duration.  C87 gives the events of a history times
  and says what is expected of the timers.

### Simplifications

* `int`, `uint8` and `rune` are `Z`; conversions to a byte or int64 are explicit
  in the model where Go wraps.  Lengths of slices are assumed to fit an `int`.
* nil and empty slices are distinguished only where the code does
  (`SetUD`, `SetUDH`).
* A slice expression panics beyond `len`, Go allows up to `cap`; no call relies
  on that.
* The Encoder field `sopts` is left out: nothing sets it.

## Findings

Behaviour of the code that contradicts the property one would state.  Each is
proved as a `_refuted` theorem or is visible in the exact hypotheses of a
`_partial` one.

1. U+001B is accepted by the GSM7 encoder and sent as a bare escape, so it does
   not survive (C06, C11, C21, C41), and a run of them can be split (C14).
2. More than 255 segments: the count and sequence number wrap (C16), and from 258
   on the Collector delivers the first few segments as if they were the message
   (C41).
3. `Segment` does not terminate if the template header leaves no room for a
   character (C19).
4. USSD unpacking drops a genuine last character whose code looks like the CR
   padding; with fill bits it also drops a final CR on an octet boundary, and
   with five or six of them a string of 8k septets with a final CR gains one
   (C03).
5. `Encode` replaces the template's header by the national language header
   (C49).
6. `WithUDH` sets the header without the UDHI bit; `SetUDH` of an empty non-nil
   header sets UDHI although no header is written (C27 states what is needed).
7. Reports with FCS 0 leave the octet out when marshalled but need it when
   unmarshalled (C29).
8. Commands never write their header (C29).
9. The data of the last header element may run past the declared header length
   (C26).
10. A relative validity period of 5 minutes is coded as octet 1, which is 10
    minutes (C24, C25, C28).
11. Collect stores a multi-part TPDU of an unsupported type although it returns
    an error (C37), under one shared key, which can then panic (C40).
12. `Pipes` returns live slices, which another goroutine may be writing to (C48).
13. An 8-bit and a 16-bit reference of the same value share a key, so that parts of two
    messages are returned as one (C96).
14. A segment that duplicates one of an expiring pipe is rejected (C38).
15. The DCS setters accept the constants AlphaReserved and MClassUnknown (C32).
16. A status report may be cut after the status octet (C31).
17. A user data length of 0 is accepted with anything after it.
18. `smscounter` panics on an empty message (C50).
19. The single-segment path of `Segment` does not set the PI bit, so reports lose
    their user data.
20. Addresses longer than the length octet can say wrap silently (C20 states the
    bound).
21. Unmarshalling a PDU with an empty SMSC into a used value keeps the old SMSC.
22. A 7-bit TPDU with a header and no text rounds its length octet down.
23. `ucs2.Decode` of an unpaired surrogate swallows the following code unit.
24. The expiry handler may run after Close, and gets slices with nil entries.
25. `smsdeliver` crashes on parts of reports, by way of 11 (C53).
26. Accepted TPDUs that do not survive marshalling (C57): relative validity period
    octet 0, hh:mm:ss of 100 hours or more, an announced but empty header, a
    COMMAND with a header, a report with cause 0, month 0 of 1970, a reserved data
    coding without user data.
27. Segment appends a placeholder element to the template's header to measure it
    (`append(t.UDH, cfg.ief(0, 0, 0))`).  If the header has spare capacity this
    overwrites the caller's array behind the header (C58).
28. The user data of the TPDUs of one message are adjacent slices of one array with
    their capacity left in place, so `append` to one overwrites the next (C59).
    In 8-bit and UCS-2 mode that array is the caller's own message.
29. `e.eopts = append(e.eopts, o)` in a call of Encode on a copy of the Encoder:
    with spare capacity (three options, in current Go) concurrent calls that bring
    their own character set options overwrite each other's (C60).
30. Codes 0 to 2 of the Hindi locking table are the Bengali candrabindu, anusvara
    and visarga (U+0981 to U+0983), not the Devanagari ones, which are in no table:
    a Hindi text with an anusvara cannot be sent in 7-bit form and is shown with a
    Bengali sign when received from a sender that uses the Devanagari table (C61).
31. The Latin extension tables read code 0x0D as a line feed, the others as a
    carriage return (C61).
32. `Strict` is documented to concern the character set "not the extension set",
    but an unknown escaped septet is an error as well (C07, C62).
33. The maps returned by the charset package are the package's own: a caller who
    changes one changes it for everybody, and changes the encoders generated from
    it later (C63).
34. UnmarshalBinary does not clear its receiver.  User data of length zero leaves
    the text of the message read before, so a TPDU that reads "hello" and then an
    empty DELIVER says "hello" again.  A report with user data but no data coding
    is read in the coding of the message before, and a status report without
    parameter indicator keeps the old one (C64).
35. A negative validity period in the enhanced seconds format is written modulo
    256: minus five seconds becomes 251 seconds.  In hh:mm:ss the hours are taken
    modulo 100, and from 4096 hours up, where float64 rounds a part of a second
    to the next hour, the hour digits can be one too high (C66).
36. A failed UnmarshalBinary does not only stop at the field its error names: a
    COMMAND cut before an octet field and a DELIVER cut before its PID set that
    field to 0, a SUBMIT with a broken validity period loses the format of the
    period it held, and an unknown message type clears the first octet (C67).
37. An alphanumeric address may hold a line feed, which smsdecode prints as it is:
    a sender can make the dump show lines such as a TP-PID of their choice before
    the real ones.  The dump of a COMMAND leaves out its header and shows a
    time stamp, which a COMMAND does not have, always `0001-01-01 00:00:00 +0000`
    (C68).
38. smsdeliver prints a message as it is: one with a line feed can look like two
    messages, the second from a number of the sender's choice (C70).
39. Decode puts a surrogate pair split between two TPDUs together with
    `append([]byte(danglingSurrogate), ud...)`, where the conversion copies
    nothing: it writes the second TPDU's user data behind that of the first one,
    in its array, if there is capacity.  If that is where the user data of a third
    TPDU is, its text is lost and the TPDU changed; any other slice of that memory
    changes too (C72).
40. `pdumode.UnmarshalBinary` keeps a slice of the buffer it is given in the PDU,
    while the SMSC number next to it, and all of a TPDU, are copies: a PDU
    kept while the buffer is read into again holds the octets of the next one
    (C73).
41. `Decode` puts a half pair left by a UCS-2 TPDU in front of the user data of the
    next whatever its alphabet, so that an 8-bit or 7-bit one gets two octets more
    (C80).
42. `ValidityPeriod.UnmarshalBinary` reports 7 octets read of an absolute period also
    when there are fewer, and forgets the format it had before it fails (C83).
43. smssubmit ends with status 0 whatever happens to its message: for a number with
    something that is no digit it prints `Submit TPDU:` and an empty line (C85).
    smsdeliver ends with status 0 although TPDUs could not be read (C84).
44. Parts of unrelated messages of unsupported types are returned together, with nil in
    some places and no error, once they are as many as the last one names
    (`C86_mixed`).  A caller that looks into every entry of the result, as `Decode`
    does, dereferences nil.
45. `FirstOctet.WithMTI` and `WithVPF` do not mask their argument: a value that is not one
    of the four spills into the flags beside the field (`C33_spill`), where `SetVP` masks.
46. charsets calls language 5 Gujaranti (`C70_charsets_prints`).
47. USSD strings: `Pack7BitUSSD` fills a last octet by looking at its value rather than at
    the number of spare bits, so that "*1001#" leaves with its six spare bits not zero, and
    `Unpack7BitUSSD` takes "o" at the end of eleven characters for filling: the octets of
    "hello hello" are read as "hello hell" (`C89_standard_refuted`; the exact sets of strings
    are `ussd_misfilled` and `ussd_misread` in `SpecUssdBits.v`).
48. The tables are generated on first use without a lock: two goroutines that use the same
    table for the first time race on the variable (`C63_race_refuted`).  A program that uses
    each table once before it starts goroutines does not (`C63_warm`).
49. `NewEncoder()` has no default message type, unlike `Encode`: the loop by which the README
    sends messages with an Encoder makes DELIVERs without an originator, with the time stamp
    of New Year 2001 (`C90_readme_partial`, `C90_type_refuted`).
50. The loop by which the README receives messages ignores the error of Unmarshal and
    dereferences the nil pointer that comes with it: octets that are no TPDU end the program
    (`C90_broken_panics`).
51. The reference numbers of an Encoder have eight bits: if half of a message is lost, a
    Collector without a timeout puts the other half together with half of the 256th message
    after it, if that comes out of order, and returns a message that was never sent
    (`C91_interleaved_refuted`).
52. DecodeUserData returns 8-bit user data as it is, not a copy: changing the text changes
    the TPDU (`C93_refuted`).  Other texts are copies, and so is what Decode returns.
53. A reassembly timeout below 0 is taken as it is (only 0 means none), so each segment's
    timer runs out at once and no message of several segments is ever returned
    (`C100_negative`).
