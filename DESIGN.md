# Formal model of go-dc: design

The code under study is `/repo` (direct-connect/go-dc, Go, `go 1.12` in go.mod),
read as text: nothing of it was built or run.  The model is written in
Rocq/Coq 8.16.1 under `rocq/theories` (logical path `Verif`), using the Coq
standard library only.

## Trusted base

* The Coq kernel (and its bytecode machine: `vm_compute` is used for finite checks
  and for the examples).  Each of the modules of the
  library was also checked on its own with `coqchk -norec` (which takes the modules
  it depends on, including the standard library's, as given); every run succeeded.
* Assumptions: below every theorem in `Props*.v` there is a `Print Assumptions`;
  each of them answers `Closed under the global context`, so no axiom is used by
  any property theorem.  A listing of all axioms *present* in loaded libraries also
  shows those of `Coq.ssr.ssrunder`, which comes with the standard library;
  no theorem depends on them.
* The correspondence of the model and the Go code.  It was made by reading; every
  definition of the model cites file and lines.  It is checked in one way only:
  `TestsNmdc.v` and `TestsAdc.v` run the model on the inputs of the project's own tests
  and compare with the results these tests expect.
* The meaning of the Go standard library functions which the code calls (`bytes`,
  `strings`, `strconv`, `encoding/base32`, `html`, `unicode/utf8`, `bufio.Writer`,
  `io.LimitReader`...), which is modelled in `Base.v`, `Num.v`, `Base32.v`, `Html.v`,
  `Utf8.v` and `LineWriter.v`.  Go 1.12 or newer is assumed; the table of HTML entities is that of
  HTML5 (`HtmlTable.v`).
* The specifications (`Spec*.v`) say what the properties mean; a reader has to
  agree with them.

## Conventions

* Bytes are `Coq.Init.Byte.byte`, byte strings are `list byte`: every theorem
  ranges over all byte strings, no well-formedness side condition is needed.
* Go `int`/`int64` are `Z`, `uint64` are `N`; conversions that can wrap are written
  with an explicit wrap function; range hypotheses say "this is a Go int".
* Every Go function becomes a total Gallina function.  Results are
  `Ok v | Err e | Panic`: a Go run-time panic (index out of range, nil
  dereference) is an explicit outcome, so "never crashes" is a statement.
* Loops become structural recursion, folds, or recursion on fuel where running
  out of fuel is a separate outcome, which is proved unreachable for large enough fuel.
* Go maps are association lists in *some* iteration order; statements quantify
  over the order.
* Slices are lists; where the code slices beyond `len` into the capacity
  (`adc/packets.go`) the spare capacity is explicit.
* Callbacks (hooks, timeout functions) are functions on an arbitrary state; text
  encoders and decoders, the hash functions, zlib, `strconv.ParseFloat`, the
  connection and `url.Parse` are universally quantified parameters.  The connection is a
  script of read or write outcomes.
* When a property is false as stated, there is a theorem ending in `_refuted` with a
  concrete witness, and beside it the strongest true variant found (`_partial`, or a theorem which says
  exactly what happens).  The property keeps the status `partial`.

## Layout

| files | content |
|---|---|
| `Base`, `Num`, `Utf8`, `Html`, `HtmlTable`, `Base32` | Go standard library functions used by the code |
| `LineReader`, `LineWriter` | `lineproto` |
| `NmdcText`, `NmdcChat`, `NmdcFiles`, `NmdcHub`, `NmdcUser`, `NmdcMessage`, `NmdcReader`, `NmdcWriter` | `nmdc` |
| `AdcText`, `AdcValue`, `AdcMessage`, `AdcPacket`, `AdcReader`, `AdcWriter`, `AdcExt` | `adc` |
| `Tiger` | `tiger`, `adc/types`, `keyprint`, `keyprint/tlskp` |
| `ConnAddr` | `conn.go`, and the address functions of `nmdc/conn.go` and `adc/conn.go` |
| `Spec*` | specifications: relations over the types of the model, without its encoders, decoders and state machines; the tables of HTML entities and a few basic functions (append, UTF-8 form of a character) are shared |
| `*Facts`, `*Ops`, `*Stream`, `NmdcRead*`, `AdcRead*`, `LineSession`, `LineTransport`, `*EndToEnd`, ... | proofs |
| `Props*` | property theorems only, each with `Print Assumptions` and a concrete instance |
| `Tests*` | the model run on the inputs of the project's tests |

## Per property

"Model" names the files with the definitions, the last column the files with the proofs, the method, and for
`partial` what is false or missing.  The theorems of each property are listed in `MANIFEST.json`.

| id | property | status | model | proofs and method |
|---|---|---|---|---|
| C01 | Line framing does not depend on how the connection chunks the data | proved | LineReader | LineReaderFacts, LineReaderStream: induction on the read script with the invariant: unread buffer ++ undelivered script = unread stream; the specification (SpecLine) cuts the stream at delimiters without looking at chunks. |
| C02 | Lines that fit the configured limit are never rejected, far too long ones always are | proved | LineReader | LineReaderFacts, LineReaderStream: induction on the read script with the invariant: unread buffer ++ undelivered script = unread stream; the specification (SpecLine) cuts the stream at delimiters without looking at chunks. |
| C03 | SetMaxLine is a hard upper bound on returned lines | partial | LineReader | LineReaderFacts, LineReaderStream: induction on the read script with the invariant: unread buffer ++ undelivered script = unread stream; the specification (SpecLine) cuts the stream at delimiters without looking at chunks. The limit is checked before the last piece is appended; the hard bound is false (_refuted), the true bound is limit-1+2048 (_partial). |
| C04 | OnLine hooks filter the stream of lines and nothing else | proved | LineReader | LineReaderFacts, LineReaderStream: induction on the read script with the invariant: unread buffer ++ undelivered script = unread stream; the specification (SpecLine) cuts the stream at delimiters without looking at chunks. |
| C05 | Binary transfers consume exactly the announced number of bytes | proved | LineReader | LineReaderOps: same invariant; the binary reader is a counter over the stream. Proved for sizes below 2^63 (int64 conversion); C05_huge_refuted shows what happens above. |
| C06 | A truncated final line is never delivered as a complete line | proved | LineReader | LineReaderOps: case analysis of every call on the error and closed states. Proved for permanent errors; C06_transient_error_refuted: after a transient error the tail of the line is returned as a line. |
| C07 | A closed reader stays closed | proved | LineReader | LineReaderOps: case analysis of every call on the error and closed states. |
| C08 | Switching the reader to zlib and back loses and invents nothing | partial | LineReader (inflater [act] arbitrary) | LineReaderOps: the invariant over two layers: inflated part ++ rest of the raw stream. Proved for connections without empty reads; C08_empty_read_refuted: an empty read panics; C08_failed_enable_refuted: a failed EnableZlib is permanent. |
| C09 | The writer delivers all lines, in order, exactly once | proved | LineWriter (bufio.Writer, connection script, deflater arbitrary) | LineWriterFacts, LineWriterOps, LineWriterFinal: an invariant relating the event trace of the connection to the lines accepted so far, preserved by every operation; histories are lists of operations. |
| C10 | Writer errors are sticky and the connection only ever sees a prefix | partial | LineWriter (bufio.Writer, connection script, deflater arbitrary) | LineWriterFacts, LineWriterOps, LineWriterFinal: an invariant relating the event trace of the connection to the lines accepted so far, preserved by every operation; histories are lists of operations. Sticky for WriteLine and Flush and prefix property proved; C10_write_error_refuted: an error of Write is not sticky. |
| C11 | Every connection write is bracketed by the timeout callback | partial | LineWriter (bufio.Writer, connection script, deflater arbitrary) | LineWriterFacts, LineWriterOps, LineWriterFinal: an invariant relating the event trace of the connection to the lines accepted so far, preserved by every operation; histories are lists of operations. Proved for WriteLine and Flush; Write, DisableZlib and Close bypass the timeout (C11_unbracketed_refuted). |
| C12 | Writer OnLine hooks drop exactly the lines they reject | proved | LineWriter (bufio.Writer, connection script, deflater arbitrary) | LineWriterFacts, LineWriterOps, LineWriterFinal: an invariant relating the event trace of the connection to the lines accepted so far, preserved by every operation; histories are lists of operations. |
| C13 | Compressed sections are well bracketed | proved | LineWriter (bufio.Writer, connection script, deflater arbitrary) | LineWriterFacts, LineWriterOps, LineWriterFinal: an invariant relating the event trace of the connection to the lines accepted so far, preserved by every operation; histories are lists of operations. For connections obeying io.Writer; C13_short_writes_refuted shows the hypothesis is needed. |
| C14 | Close flushes everything and the writer refuses further use | partial | LineWriter (bufio.Writer, connection script, deflater arbitrary) | LineWriterFacts, LineWriterOps, LineWriterFinal: an invariant relating the event trace of the connection to the lines accepted so far, preserved by every operation; histories are lists of operations. Everything except 'calling Close again is harmless', which is false: it panics in every state (C14_close_twice_refuted). |
| C15 | A failed attempt to enable compression leaves the writer usable | partial | LineWriter (bufio.Writer, connection script, deflater arbitrary) | LineWriterFacts, LineWriterOps, LineWriterFinal: an invariant relating the event trace of the connection to the lines accepted so far, preserved by every operation; histories are lists of operations. Refuted for invalid levels (later Flush and Close panic); all other refusals leave the writer unchanged (_partial). |
| C16 | Lines written on one side are the lines read on the other side | proved | LineReader, LineWriter | LineTransport: composition of C01/C08 with C09/C13. |
| C17 | TreeHash computes the THEX Tiger tree hash | proved | Tiger (hash function arbitrary) | TigerFacts: the in-place pairing loop equals a pairwise map; strong induction against the recursive THEX definition of SpecHash. |
| C18 | Hashing leaves and hashing the stream agree | proved | Tiger (hash function arbitrary) | TigerFacts: the in-place pairing loop equals a pairwise map; strong induction against the recursive THEX definition of SpecHash. |
| C19 | The tree hash depends only on the content | partial | Tiger (hash function arbitrary) | TigerFacts: the in-place pairing loop equals a pairwise map; strong induction against the recursive THEX definition of SpecHash. False as stated: read boundaries become block boundaries and an empty read ends the file (_refuted); proved for readers that fill the buffer. |
| C20 | Leaves.TreeHash is total and does not modify its receiver | partial | Tiger (hash function arbitrary) | TigerFacts: the in-place pairing loop equals a pairwise map; strong induction against the recursive THEX definition of SpecHash. TreeHash of an empty leaf list crashes (_refuted); proved for non-empty lists. |
| C21 | Hash and CID text forms round-trip | proved | Tiger, Base32 | Base32Facts, TigerFacts: bits of five-byte groups; finite checks over one group, induction over groups. |
| C22 | Parsing a hash from text accepts exactly the 39-symbol base32 strings | partial | Tiger, Base32 | Base32Facts, TigerFacts: bits of five-byte groups; finite checks over one group, induction over groups. After the 39 symbols a byte 0xFF and up to seven bytes are accepted too (_refuted); C22_accepts gives the exact accepted language and C22_total the absence of crashes. |
| C23 | Decoding a hash from network input never crashes | partial | Tiger, Base32 | Base32Facts, TigerFacts: bits of five-byte groups; finite checks over one group, induction over groups. The in-place decoder crashes on 40 or more symbols (_refuted); exactly then (C23_crash_exactly), and otherwise agrees with the other decoder. |
| C24 | SIDFromInt is a faithful 20-bit encoding | proved | Tiger (sid_from_int) | TigerFacts: arithmetic on five-bit digits. |
| C25 | Key print verification accepts exactly the keyprints of the peer | proved | Tiger (key prints) | TigerFacts: injectivity of base32; case analysis of the certificate list. |
| C26 | Encoded NMDC text cannot break out of its field | proved | NmdcText, Html, Utf8 | NmdcTextFacts, HtmlFacts, Utf8Facts: induction on the text; UTF-8 validity is characterised by lists of Unicode scalar values. |
| C27 | NMDC strings round-trip | proved | NmdcText, Html, Utf8 | NmdcTextFacts, HtmlFacts, Utf8Facts: induction on the text; UTF-8 validity is characterised by lists of Unicode scalar values. _refuted shows that the exclusion of legacy escapes in the statement is necessary |
| C28 | NMDC names round-trip | proved | NmdcText, Html, Utf8 | NmdcTextFacts, HtmlFacts, Utf8Facts: induction on the text; UTF-8 validity is characterised by lists of Unicode scalar values. |
| C29 | Decoded text is always valid UTF-8 | proved | NmdcText, Html, Utf8 | NmdcTextFacts, HtmlFacts, Utf8Facts: induction on the text; UTF-8 validity is characterised by lists of Unicode scalar values. |
| C30 | Unsigned number fields are parsed exactly | proved | Num | NumFacts, NumSpec: induction on digits with the overflow bound as invariant. |
| C31 | Signed number fields are parsed exactly | proved | Num | NumFacts, NumSpec: induction on digits with the overflow bound as invariant. |
| C32 | NMDC chat messages round-trip | proved | NmdcChat | NmdcChatFacts: wire relations of SpecNmdc; encoder and decoder both shown to follow the relation. |
| C33 | Decoding a chat line loses no characters of the text | partial | NmdcChat | NmdcChatFacts: wire relations of SpecNmdc; encoder and decoder both shown to follow the relation. False as stated: '<a>bcd>' loses the byte c (_refuted); proved for lines that do not end with a second '>'. |
| C34 | Private messages round-trip | proved | NmdcChat | NmdcChatFacts: wire relations of SpecNmdc; encoder and decoder both shown to follow the relation. |
| C35 | ConnectToMe and RevConnectToMe round-trip | proved | NmdcChat | NmdcChatFacts: wire relations of SpecNmdc; encoder and decoder both shown to follow the relation. |
| C36 | MyINFO round-trips | proved | NmdcUser | NmdcUserFacts: as C32; C37 by enumeration of the 256 flag bytes. |
| C37 | Every user flag combination survives MyINFO | partial | NmdcUser | NmdcUserFacts: as C32; C37 by enumeration of the 256 flag bytes. False as stated: flag bytes '$' and '|' break the line (_refuted, for every MyINFO); proved for all other flags. |
| C38 | Search requests round-trip | proved | NmdcFiles | NmdcFilesFacts, NmdcLimitsFacts: as C32. |
| C39 | Search patterns survive verbatim | partial | NmdcFiles | NmdcFilesFacts, NmdcLimitsFacts: as C32. False as stated: '$' arrives as a space (_refuted); C39_pattern_received says exactly what arrives. |
| C40 | Search results round-trip | proved | NmdcFiles | NmdcFilesFacts, NmdcLimitsFacts: as C32. |
| C41 | Paths in search results survive verbatim | partial | NmdcFiles | NmdcFilesFacts, NmdcLimitsFacts: as C32. False as stated: escapes in paths are not undone, slot-like names change (_refuted); C41_path_received says exactly what arrives. |
| C42 | TTH searches (SA/SP) round-trip | proved | NmdcFiles | NmdcFilesFacts, NmdcLimitsFacts: as C32. |
| C43 | File requests (ADCGET/ADCSND/Direction) round-trip | proved | NmdcFiles | NmdcFilesFacts, NmdcLimitsFacts: as C32. |
| C44 | A requested length is never turned into a negative one | partial | NmdcFiles | NmdcFilesFacts, NmdcLimitsFacts: as C32. False as stated: lengths of 2^63 and more arrive negative, 2^64-1 as -1 (_refuted); C44_length is the exact result. |
| C45 | Hub information messages round-trip | proved | NmdcHub, NmdcChat, NmdcMessage | NmdcHubFacts, NmdcDecodeFacts: as C32; the registry is a finite table. |
| C46 | User lists round-trip | proved | NmdcHub, NmdcChat, NmdcMessage | NmdcHubFacts, NmdcDecodeFacts: as C32; the registry is a finite table. |
| C47 | User commands round-trip | proved | NmdcHub, NmdcChat, NmdcMessage | NmdcHubFacts, NmdcDecodeFacts: as C32; the registry is a finite table. |
| C48 | Simple NMDC messages round-trip | proved | NmdcHub, NmdcChat, NmdcMessage | NmdcHubFacts, NmdcDecodeFacts: as C32; the registry is a finite table. |
| C49 | A message encodes to exactly one frame | partial | NmdcMessage and all message files | NmdcFrameFacts, NmdcDecodeFacts: case analysis over all message types. Proved for all messages except empty chat (and nameless raw) messages, for which it is false (_refuted). |
| C50 | Encoding never crashes | partial | NmdcMessage and all message files | NmdcFrameFacts, NmdcDecodeFacts: case analysis over all message types. False as stated: an empty chat message crashes (_refuted); C50_crash_iff: nothing else does. |
| C51 | Decoding network input never crashes (NMDC) | partial | NmdcMessage and all message files | NmdcFrameFacts, NmdcDecodeFacts: case analysis over all message types. False as stated: a Search with a too long hash crashes (_refuted); C51_crash_exact: exactly the searches of search_crash do. |
| C52 | The NMDC key never contains reserved bytes and is the documented function of the lock | partial | NmdcHub (lock) | NmdcKeyFacts, NmdcExtraFacts: bytewise nibble swap, induction on the lock. Key function and absence of reserved bytes proved; recovering the lock is false in general (C52_inverse_refuted) and proved when the key bytes contain no replacement sequence. |
| C53 | Computing a key never crashes | partial | NmdcHub (lock) | NmdcKeyFacts, NmdcExtraFacts: bytewise nibble swap, induction on the lock. False as stated: locks shorter than two bytes crash (_refuted); C53_crash_iff: exactly those. |
| C54 | ReadMsg delivers the messages of the stream in order | proved | NmdcReader on LineReader | NmdcReaderFacts, NmdcReaderCalls, NmdcReaderTypes: one loop iteration at a time on top of C01/C04; the specification gives each line a meaning. |
| C55 | The message type read is the one named by the command | proved | NmdcReader on LineReader | NmdcReaderFacts, NmdcReaderCalls, NmdcReaderTypes: one loop iteration at a time on top of C01/C04; the specification gives each line a meaning. |
| C56 | A message dropped by a hook or ignored after a decode error has no influence on later messages | partial | NmdcReader on LineReader | NmdcReaderFacts, NmdcReaderCalls, NmdcReaderTypes: one loop iteration at a time on top of C01/C04; the specification gives each line a meaning. The full statement is false for ReadMsg after a message was dropped or skipped: it is decoded into a message value that may hold old state. The refuting theorem has the witness, the exact theorem says what is returned. |
| C57 | ReadMsgToAny with a RawMessage accepts every command | partial | NmdcReader on LineReader | NmdcReaderFacts, NmdcReaderCalls, NmdcReaderTypes: one loop iteration at a time on top of C01/C04; the specification gives each line a meaning. The full statement is false (C57_wildcard_refuted): the type check after the loop refuses every command except the one named by the RawMessage's Typ, and every chat line. C57_accepts_only_its_type_partial says exactly what is accepted. |
| C58 | WriteMsg writes all messages that hooks do not reject | partial | NmdcWriter on LineWriter | NmdcWriterFacts: induction on the message list, on top of C09. The full statement is false: a message dropped by a hook silently ends the whole call (C58_dropped_refuted). C58_written says exactly which lines any sequence of calls writes; C58_all_written_partial is the full claim for hooks that never drop and calls that report success. Hooks may change the message: the line written is the encoding of the message as the hooks left it. |
| C59 | A message that cannot be encoded leaves no trace on the connection | proved | NmdcWriter on LineWriter | NmdcWriterFacts: induction on the message list, on top of C09. What a failing encoder leaves in the scratch buffer is arbitrary; the message is the one the hooks left. |
| C60 | NMDC end to end | proved | NmdcWriter, NmdcReader | NmdcEndToEnd: composition of C16, C49, C54, C58. Without compression and with one section compressed by ZOn; compressor and inflater are an arbitrary matching pair. Hooks of the writer may change messages by an arbitrary function ed; the reader then returns the changed messages (ed = identity is the property). |
| C61 | ADC escaping round-trips and hides separators | proved | AdcText | AdcTextFacts: induction on the text. |
| C62 | ADC packets round-trip | proved | AdcPacket | AdcPacketFacts: case analysis of the eight packet types; slicing beyond len has explicit capacity. Proved for all eight kinds. C62_payload_exact: the condition on feature payloads is exact; C62_payload_refuted is a witness that it is needed. C62_typed and C62_typed_to extend it to structured messages. |
| C63 | Decoding an ADC packet never crashes | partial | AdcPacket | AdcPacketFacts: case analysis of the eight packet types; slicing beyond len has explicit capacity. The full statement is false: an incomplete selector at the end of a feature packet panics when fewer than three bytes of capacity follow (C63_crash_refuted). C63_crash_exact says exactly when. |
| C64 | Decoded session ids are four characters of the packet header | partial | AdcPacket | AdcPacketFacts: case analysis of the eight packet types; slicing beyond len has explicit capacity. The full statement is false: a line that ends inside of the last SID is accepted with the delimiter as its last character (C64_newline_refuted). C64_newline_exact says exactly when. |
| C65 | ADC structured messages round-trip | proved | AdcValue, AdcMessage | AdcValueFacts, AdcMessageFacts, AdcDecodeFacts: one theorem over arbitrary field tables (dependent records of values), instantiated for all structures. |
| C66 | Decoding ADC message payloads never crashes | partial | AdcValue, AdcMessage | AdcValueFacts, AdcMessageFacts, AdcDecodeFacts: one theorem over arbitrary field tables (dependent records of values), instantiated for all structures. The full statement is false (C66_too_few_refuted, C66_overlong_refuted). C66_crash_partial lists all causes; they are exact for RCM, GFI and PAS. For CTM, SCH and RES an error in an earlier field can come first. |
| C67 | ADC booleans are decoded with their meaning | partial | AdcValue | AdcDecodeFacts, AdcValueFacts: case analysis; ParseFloat is a parameter. The full statement is false: "0" is decoded as true (C67_zero_refuted). C67_decoded_partial gives the decoded value for every text. |
| C68 | ADC integers are decoded exactly or rejected | partial | AdcValue | AdcDecodeFacts, AdcValueFacts: case analysis; ParseFloat is a parameter. The full statement is false: texts that ParseFloat reads as a non-integral number are accepted and ignored (C68_fraction_refuted). C68_decoded and C68_port give the value for every text; C68_rejected_partial is the rejection of texts that ParseFloat refuses. |
| C69 | Generic field lists (UserInfoMod) round-trip | partial | AdcMessage, AdcValue | AdcCustomFacts: direct; maps are lists up to permutation. The full statement is false: values are not unescaped (C69_escape_refuted). C69_roundtrip_partial is the exact condition. |
| C70 | Status messages round-trip | proved | AdcMessage, AdcValue | AdcCustomFacts: direct; maps are lists up to permutation. Proved for severities from 0 and codes 0 to 99; C70_negative_refuted shows that negative codes do not decode. C70_decoded is exact for every text. |
| C71 | File requests (GET/SND) round-trip in ADC | proved | AdcMessage, AdcValue | AdcCustomFacts: direct; maps are lists up to permutation. Proved for new requests; decoding into a reused request keeps the compression flag (C71_reuse_refuted, C71_reuse_partial). |
| C72 | Feature negotiation is order independent and correct | proved | AdcMessage, AdcValue | AdcCustomFacts: direct; maps are lists up to permutation. |
| C73 | A removed feature is not set | partial | AdcMessage, AdcValue | AdcCustomFacts: direct; maps are lists up to permutation. The full statement is false: a removed feature has an entry (C73_removed_refuted) and additions win over later removals in one message (C73_order_refuted). The partial theorems are exact. |
| C74 | ADC end to end | proved | AdcReader, AdcWriter | AdcEndToEnd: composition of C16 and C62/C65. |
| C75 | An ADC packet encodes to exactly one line | proved | AdcPacket | AdcPacketFacts: no encoder writes a line feed. |
| C76 | Extension groups classify files by extension | proved | AdcExt | AdcExtFacts: finite tables; ToLower on UTF-8. |
| C77 | Address dispatch by scheme | partial | ConnAddr (url.Parse is a parameter) | ConnFacts: case analysis on the prefix tests. The full statement is false: dc.ParseAddr tests the prefix "adc" of the address (C77_dispatch_refuted: "adchub.example.com" is refused, "ADC://hub:1" is refused). C77_dispatch_partial: it holds for addresses written with a scheme in lower case. C77_accepted: an accepted address is always of the right protocol. |
| C78 | Decoding into a reused message does not leak old state | partial | all Nmdc message files | NmdcReuseFacts: decoding from an arbitrary old value compared with decoding from zero. False as stated for ten message types (_refuted lists a case for each); proved for all other types and for zeroed fields; acceptance never depends on old contents. |
| C79 | Extension sets intersect correctly | proved | NmdcHub (extensions) | NmdcKeyFacts: sets as lists up to order. |
| C80 | Splitting application and version is lossless | proved | AdcMessage (normalize) | AdcCustomFacts: direct. |
| C81 | The writer never panics or hangs before Close | proved | LineWriter | LineWriterFinal: totality of every operation under the invariant. |
| C82 | Login values round-trip | proved | AdcMessage | AdcCustomFacts: direct, with base32 lemmas. Proved. Beyond the claim: characters that base32 skips lengthen the salt (C82_skipped_refuted). |
| C83 | Announced features are understood | proved | AdcMessage | AdcCustomFacts: direct, with base32 lemmas. |
| C84 | Normalization accepts exactly addresses with a host | proved | ConnAddr | ConnFacts (ConnDemo for the instances): case analysis; url.Parse and URL.String arbitrary with stated laws. |
| C85 | Normalizing an address twice changes nothing | proved | ConnAddr | ConnFacts (ConnDemo for the instances): case analysis; url.Parse and URL.String arbitrary with stated laws. |
| C86 | Text fields mean what their escapes say | proved | NmdcText, Html | HtmlReadFacts, NmdcReadFacts: decoder equals the relation of SpecRead (deterministic grammar), both directions. |
| C87 | Chat lines are read exactly as the protocol describes | proved | all Nmdc message files | NmdcReadChat, NmdcReadCmd, NmdcReadFiles, NmdcReadHub, NmdcReadUser, NmdcReadMsg: decoder accepts exactly the grammar of SpecRead: soundness by following the code, completeness by uniqueness of the cuts. |
| C88 | Private messages are read exactly as the protocol describes | proved | all Nmdc message files | NmdcReadChat, NmdcReadCmd, NmdcReadFiles, NmdcReadHub, NmdcReadUser, NmdcReadMsg: decoder accepts exactly the grammar of SpecRead: soundness by following the code, completeness by uniqueness of the cuts. |
| C89 | Connection requests are read exactly as the protocol describes | proved | all Nmdc message files | NmdcReadChat, NmdcReadCmd, NmdcReadFiles, NmdcReadHub, NmdcReadUser, NmdcReadMsg: decoder accepts exactly the grammar of SpecRead: soundness by following the code, completeness by uniqueness of the cuts. |
| C90 | User commands are read exactly as the protocol describes | proved | all Nmdc message files | NmdcReadChat, NmdcReadCmd, NmdcReadFiles, NmdcReadHub, NmdcReadUser, NmdcReadMsg: decoder accepts exactly the grammar of SpecRead: soundness by following the code, completeness by uniqueness of the cuts. |
| C91 | Transfer requests are read exactly as the protocol describes | proved | all Nmdc message files | NmdcReadChat, NmdcReadCmd, NmdcReadFiles, NmdcReadHub, NmdcReadUser, NmdcReadMsg: decoder accepts exactly the grammar of SpecRead: soundness by following the code, completeness by uniqueness of the cuts. |
| C92 | Searches are read exactly as the protocol describes | proved | all Nmdc message files | NmdcReadChat, NmdcReadCmd, NmdcReadFiles, NmdcReadHub, NmdcReadUser, NmdcReadMsg: decoder accepts exactly the grammar of SpecRead: soundness by following the code, completeness by uniqueness of the cuts. |
| C93 | Search results are read exactly as the protocol describes | proved | all Nmdc message files | NmdcReadChat, NmdcReadCmd, NmdcReadFiles, NmdcReadHub, NmdcReadUser, NmdcReadMsg: decoder accepts exactly the grammar of SpecRead: soundness by following the code, completeness by uniqueness of the cuts. |
| C94 | Short hash searches are read exactly as the protocol describes | proved | all Nmdc message files | NmdcReadChat, NmdcReadCmd, NmdcReadFiles, NmdcReadHub, NmdcReadUser, NmdcReadMsg: decoder accepts exactly the grammar of SpecRead: soundness by following the code, completeness by uniqueness of the cuts. |
| C95 | User information is read exactly as the protocol describes | proved | all Nmdc message files | NmdcReadChat, NmdcReadCmd, NmdcReadFiles, NmdcReadHub, NmdcReadUser, NmdcReadMsg: decoder accepts exactly the grammar of SpecRead: soundness by following the code, completeness by uniqueness of the cuts. |
| C96 | Lists are read exactly as the protocol describes | proved | all Nmdc message files | NmdcReadChat, NmdcReadCmd, NmdcReadFiles, NmdcReadHub, NmdcReadUser, NmdcReadMsg: decoder accepts exactly the grammar of SpecRead: soundness by following the code, completeness by uniqueness of the cuts. |
| C97 | Hub information is read exactly as the protocol describes | proved | all Nmdc message files | NmdcReadChat, NmdcReadCmd, NmdcReadFiles, NmdcReadHub, NmdcReadUser, NmdcReadMsg: decoder accepts exactly the grammar of SpecRead: soundness by following the code, completeness by uniqueness of the cuts. |
| C98 | Decoding is determined by the grammar | proved | all Nmdc message files | NmdcReadChat, NmdcReadCmd, NmdcReadFiles, NmdcReadHub, NmdcReadUser, NmdcReadMsg: decoder accepts exactly the grammar of SpecRead: soundness by following the code, completeness by uniqueness of the cuts. |
| C99 | A reader session reads the stream of the connection in any order of calls | proved | LineReader | LineSession: simulation of any call sequence by a stream automaton (SpecSession). |
| C100 | Every ADC structure is decoded exactly as its field table demands | proved | AdcValue, AdcMessage | AdcReadFacts, AdcReadPackets: as C87, over arbitrary field tables. |
| C101 | Every ADC message is decoded exactly as specified | proved | AdcValue, AdcMessage | AdcReadFacts, AdcReadPackets: as C87, over arbitrary field tables. |
| C102 | ADC lines are decoded exactly by the packet grammar | proved | AdcPacket | AdcReadPackets: as C87. |
| C103 | Any NMDC stream is read line by line as the grammar says | proved | NmdcReader on LineReader, all Nmdc message files | NmdcStreamFacts, NmdcCrashFacts, NmdcRetryFacts: C98 and the exact crash condition give each line its meaning, induction on the lines; decoders as lists of assignments show that the second decoding overwrites what the first one left. |
| C104 | OnUnknownEncoding decides how the line is read | partial | NmdcReader on LineReader, all Nmdc message files | NmdcStreamFacts, NmdcCrashFacts, NmdcRetryFacts: C98 and the exact crash condition give each line its meaning, induction on the lines; decoders as lists of assignments show that the second decoding overwrites what the first one left. C104_callback: the full session. False as stated for two cases (_refuted): identifiers of ADCGET/ADCSND and user command paths are refused without asking; after a nil answer a MyINFO with a flag byte above 0x7F is still refused. After a nil answer, fields which the line may leave alone are not described. |
| C105 | Any ADC stream is read line by line as the packet grammar says | proved | AdcReader on LineReader, AdcPacket, AdcMessage | AdcStreamFacts: C101, C102 and the exact crash conditions (C63, C101) classify each line, induction on the calls; uniqueness because every reading is the result of the decoder. |
| C106 | A relayed ADC packet keeps its meaning | partial | AdcPacket, AdcMessage, AdcValue | AdcRelayFacts: C100-C102 describe what the first decoding accepts; every value read can be told from its text (C65), escapes keep foreign bytes and feature selectors out, so C62 applies to the second decoding. The full statement is false in three ways: a negative status code is written as no number (C106_status_refuted), names of features lose their escapes, which can break the line (C106_features_refuted), and a broadcast, direct, echo or feature packet that ends with its identifier one byte early takes the line feed as part of it and is written as two lines (C106_line_refuted). C106_same_partial and C106_line_partial are exact: they say for every decoded packet whether it comes out the same and whether it is one line. C106_raw: undecoded packets always come out the same. |
| C107 | What the NMDC encoder writes for every message | proved | NmdcText, NmdcChat, NmdcHub, NmdcFiles, NmdcUser, NmdcMessage | NmdcWriteFacts: one equivalence per message type between the encoder and the relation in SpecWrite.v; they are put together by cases over the message. C107_written gives the payload, C107_rejected the refused values, C107_unique that there is only one payload. |
| C108 | Exactly which NMDC messages arrive unchanged | proved | NmdcText, NmdcChat, NmdcHub, NmdcFiles, NmdcUser, NmdcMessage | NmdcSurviveFacts, NmdcSurviveChat, NmdcSurviveHub, NmdcSurviveCmd, NmdcSurviveFiles, NmdcSurviveUser: C107 gives the payload and C86-C98 all its readings; for every message type the reading which equals the message exists exactly under the condition in SpecSurvive.v. Conditions are sufficient by C32-C48 and necessary because a changed piece has another length or contains a separator. C108_survives. Additional fields of MyINFO are a map, so their order is not compared. Hashes of 24 bytes: they are arrays of this size in the code. |
| C109 | Decoded NMDC messages which are sent on | proved | NmdcText, NmdcChat, NmdcHub, NmdcFiles, NmdcUser, NmdcMessage | NmdcSurviveFacts, NmdcSurviveChat, NmdcSurviveHub, NmdcSurviveCmd, NmdcSurviveFiles, NmdcSurviveUser: C107 gives the payload and C86-C98 all its readings; for every message type the reading which equals the message exists exactly under the condition in SpecSurvive.v. Conditions are sufficient by C32-C48 and necessary because a changed piece has another length or contains a separator. C109_relayed is the general statement, C109_impersonation the finding: a nameless line like "<> <admin> text" is sent on as "<admin> text". |
| C110 | What the ADC encoder writes | proved | AdcText, AdcValue, AdcMessage, AdcPacket; AdcReader, AdcWriter for C113 | AdcWriteFacts, AdcSurviveFacts: C110: one equivalence per kind of value, then fields, messages and packets. C111 and C112: the necessary direction reads the encoded text with C100-C102 and compares; that a packet read back has the same header forces its line to be the one written, so the payload is the same too. C113: C74 with C112 for each line. C110_message, C110_packet, C110_line. Features and additional fields are listed in the order in which the map is iterated; the model takes the map as a list in that order. |
| C111 | Exactly which ADC messages arrive unchanged | proved | AdcText, AdcValue, AdcMessage, AdcPacket; AdcReader, AdcWriter for C113 | AdcWriteFacts, AdcSurviveFacts: C110: one equivalence per kind of value, then fields, messages and packets. C111 and C112: the necessary direction reads the encoded text with C100-C102 and compares; that a packet read back has the same header forces its line to be the one written, so the payload is the same too. C113: C74 with C112 for each line. C111_message and C111_registered. ParseFloat is a parameter which yields 64 bit integers (converts). |
| C112 | Exactly which ADC packets arrive unchanged | proved | AdcText, AdcValue, AdcMessage, AdcPacket; AdcReader, AdcWriter for C113 | AdcWriteFacts, AdcSurviveFacts: C110: one equivalence per kind of value, then fields, messages and packets. C111 and C112: the necessary direction reads the encoded text with C100-C102 and compares; that a packet read back has the same header forces its line to be the one written, so the payload is the same too. C113: C74 with C112 for each line. C112_packet. The conditions on the payload speak about its text, given by C110. |
| C113 | From the packet writer to ReadPacket | proved | AdcText, AdcValue, AdcMessage, AdcPacket; AdcReader, AdcWriter for C113 | AdcWriteFacts, AdcSurviveFacts: C110: one equivalence per kind of value, then fields, messages and packets. C111 and C112: the necessary direction reads the encoded text with C100-C102 and compares; that a packet read back has the same header forces its line to be the one written, so the payload is the same too. C113: C74 with C112 for each line. C113_end_to_end and C113_compressed for sending, C113_changed for packets which do not fit. |
| C114 | What decoding into a used message gives | proved | all Nmdc message files | NmdcOverFacts: decoding into the old message and into a new one run in step; they differ by the fields named in SpecReuse.v (MyINFO, HubINFO and SR directly from the grammar of SpecRead.v with the old values in place of zero). C114_decoded and C114_accepted (up to the order of the additional fields of a tag, which is a map), C114_unique, C114_fresh. The hashes in the old message have the size of the Go array (sized), as every value of the type has. |
| C115 | Every call of the message reader with every callback | proved | NmdcReader and everything below it | NmdcCallFacts: C115: one line of the model's loop is one step of SpecCalls.v (targets, callbacks, decoding, conclusion separately), then induction over lines and calls. A message whose decoding failed has the value given by C123. C116: with such a decoder the model with and without the callback run in step. C115_calls. After a failed decoding the message has the value of C123; of the error values of UnmarshalNMDC only unknown encodings are specified. Message callbacks may change the message (but not the size of a hash); callbacks that call methods of the reader are not modelled. |
| C116 | A set decoder ends the questions about encodings | proved | NmdcReader and everything below it | NmdcCallFacts: C115: one line of the model's loop is one step of SpecCalls.v (targets, callbacks, decoding, conclusion separately), then induction over lines and calls. A message whose decoding failed has the value given by C123. C116: with such a decoder the model with and without the callback run in step. C116_settled for decoders that only give UTF-8; C116_kept_refuted shows what happens with others: after an answer of nil, the remaining lines of the call are decoded without the decoder which is still set. |
| C117 | Decoding an ADC payload into a message in use | proved | AdcMessage, AdcPacket | AdcIntoFacts: structures by C100's lemmas; the loop of Fields by induction against the splitting into words; the map of features by what fm_get finds afterwards; requests for files by comparison with a new request. C117_decoded, C117_crash, C117_decode_to for every type of message. The order of iteration of a map is not observable (same_message). Slices shared between the old and the new value are not modelled. |
| C118 | What an ADC message holds after decoding into it failed | proved | AdcLeft | AdcLeftFacts: errors as the absence of a result and of a crash (C117); structures by induction on their fields; complete base32 groups from the decoder's loop; numbers from the digits ParseUint consumed before it stopped. C118_failed, C118_success, C118_decode_to for every type of message. unmarshal_left follows the assignments of the code; C118_success ties it to unmarshal. The target of a payload that crashes is not described. |
| C119 | Messages and packets across compressed sections, binary transfers and line callbacks | proved | NmdcReader, AdcReader, LineReader | AcrossFacts: ReadLine by the session invariant of C99, which is kept by every call; induction on the number of lines that the loop of a call has used; each line by C115's and C105's lemmas. C119_nmdc, C119_adc: one call; the reader it leaves serves what remains (C99), so any sequence follows. Lines are within the limit of SetMaxLine (C02 and C03 speak of others); the connection delivers data without errors in each read, as in C99. |
| C120 | Registration of message types | proved | Registry, NmdcMessage, AdcMessage | RegistryFacts: induction on the calls: which type a name finds in the map is that of the first call with the name; the package's own calls by their distinct names. C120_calls, C120_new, C120_types, C120_nmdc, C120_adc. C120_receive says for which types UnmarshalMessage panics, C120_receive_refuted gives one; C120_name is for types whose name is constant, C120_name_refuted shows a RawMessage registered for a command, which is created without its name. |
| C121 | Accessors of ADC packets say what the line says | proved | AdcAccess, AdcPacket, Tiger | AdcReadPackets, AdcPacketFacts, TigerFacts: C102 and C64 for the header; cases over the kinds; induction on the bytes for hexadecimal text; C22 for the identifiers. C121_line for lines as the reader returns them (no line feed inside), C121_set, C121_decode. |
| C122 | Hexadecimal text and zero values of hashes | proved | AdcAccess, AdcPacket, Tiger | AdcReadPackets, AdcPacketFacts, TigerFacts: C102 and C64 for the header; cases over the kinds; induction on the bytes for hexadecimal text; C22 for the identifiers. C122_hex, C122_hex_injective, C122_zero, C122_cid. |
| C123 | Failed decodings of NMDC messages leave exactly this | proved | all Nmdc message files | NmdcLeftFacts: refusal of a value is the absence of a reading (C86-C98), so every failing path of a decoder is one constructor of SpecNmdcLeft.v and back; lists and tags by induction; the order of additional MyINFO fields is left open as in C95. C123_failed, C123_complete and C123_unique are the two directions and uniqueness up to the order of the additional MyINFO fields; C123_outcomes says that exactly one of the three outcomes applies. Hypothesis: hashes in the old message have 24 bytes, as the Go type says. |
| C124 | NMDC decoding reports an unknown encoding exactly then | proved | all Nmdc message files | NmdcUnknownFacts, NmdcAskedFacts: every place where a decoder returns the error is one constructor of SpecNmdcUnknown.v and back; for C124_asked two decodings are followed in step, which differ only at texts. C124_reported is an equivalence for every message type. C124_asked_refuted and its case record that paths of user commands and identifiers of files in another encoding are refused without the report; C124_asked is the statement for all other types. |
| C125 | Texts for people and kinds of users | proved | Methods, NmdcChat, AdcMessage | PropsMethods: lengths of escaped texts; numbers contain no colon; bits of integers. C125_chat, C125_error, C125_user_type and C125_user_types. |
| C126 | Callbacks that call SetDecoder | proved | NmdcStored, NmdcReader | NmdcStoredFacts: the stored decoder is part of the state of the callbacks: C115 with callbacks that also store what they return; a simulation between callbacks with and without storing. C126_calls and C126_in_progress; C126_applies_refuted is the finding in parentheses. SetDecoder from another goroutine is not modelled. |
| C127 | How long a line of the line reader stays valid | proved | LineShare, LineReader; NmdcReader for C128; AdcShare, AdcPacket for C129 | LineShareFacts, LineShareCalls, AdcShareFacts: memory is a list of arrays, append writes in place or allocates by an arbitrary function. The loop with slices and the loop of LineReader.v run in step; every step changes the array of the line only; without hooks that array is a prefix of the line followed by its old bytes. Arguments and payloads are parts of the line by their position. C63 with the capacity of the buffer, which never shrinks. C127_line, C127_hooks, C127_watching, C127_kept, C127_next; C127_stays_refuted shows that the limit of validity is needed. What is left of a kept line is stated for readers without hooks. Hooks do not keep slices to write to them later. |
| C128 | The message in an ErrUnexpectedCommand | partial | LineShare, LineReader; NmdcReader for C128; AdcShare, AdcPacket for C129 | LineShareFacts, LineShareCalls, AdcShareFacts: memory is a list of arrays, append writes in place or allocates by an arbitrary function. The loop with slices and the loop of LineReader.v run in step; every step changes the array of the line only; without hooks that array is a prefix of the line followed by its old bytes. Arguments and payloads are parts of the line by their position. C63 with the capacity of the buffer, which never shrinks. The claim is false: C128_stays_refuted ("bob" becomes "lic"). C128_received: true until the next line is read; C128_next: what it has then (readers without line hooks). |
| C129 | Packets read undecoded: payload and capacity | partial | LineShare, LineReader; NmdcReader for C128; AdcShare, AdcPacket for C129 | LineShareFacts, LineShareCalls, AdcShareFacts: memory is a list of arrays, append writes in place or allocates by an arbitrary function. The loop with slices and the loop of LineReader.v run in step; every step changes the array of the line only; without hooks that array is a prefix of the line followed by its old bytes. Arguments and payloads are parts of the line by their position. C63 with the capacity of the buffer, which never shrinks. The part about crashes is false: C129_crash_refuted, for every behaviour of append. C129_fitting is the true part; C129_payload and C129_next prove the rest. The decoders of the messages have crashes of their own (C105). OnKeepAlive is nil here. |
| C130 | Line callbacks of the writer that write to the line | proved | LineEdit on LineWriter | LineEditFacts: a line left by the callbacks is written as by a writer without callbacks; then C09. The functions below WriteLine do not look at the list of callbacks (C130_looking). C130_line, C130_asked, C130_failed, C130_written, C130_looking; C130_twice_refuted is the case of one slice written twice. Callbacks do not keep the slice to write to it later. |
| C131 | The keyprint of an address | proved | Query (net/url's query parsing in both versions), Tiger | QueryFacts: induction on the spelling of a text; a query is split at its separators, which no parameter contains. C25 for the form of keyprints. C132: the answer of the source is arbitrary. C131_lookup, C131_broken, C131_keyprint for both versions of net/url; C131_semicolon shows where they differ. The query is RawQuery of the parsed address. |
| C132 | NewPID is random in all its bytes | partial | Query (net/url's query parsing in both versions), Tiger | QueryFacts: induction on the spelling of a text; a query is split at its separators, which no parameter contains. C25 for the form of keyprints. C132: the answer of the source is arbitrary. False as stated: C132_short_refuted (a short read leaves zeros and no error). C132_full_partial: what is in the array for any answer; complete for sources that fill the buffer, as crypto/rand does. |
| C133 | UnmarshalPacketADC on a packet in use | partial | AdcReuse | AdcReuseFacts: C133: every call on a packet in use agrees with the call on a new one (packet_data_iff of C102); the loop over the selectors stops at a broken one with those before it. C134: lines as for C110; induction on the calls, mbuf has no influence on what is written. False as stated for the packet after a failed call: C133_kept_refuted, and for panics: C133_crash_refuted. C133_left and C133_crash: exactly when and what is left; C133_read, C133_broken, C133_again. |
| C134 | Packets with messages of a program | proved | AdcReuse | AdcReuseFacts: C133: every call on a packet in use agrees with the call on a new one (packet_data_iff of C102); the loop over the selectors stops at a broken one with those before it. C134: lines as for C110; induction on the calls, mbuf has no influence on what is written. C134_line, C134_package, C134_must, C134_must_package, C134_calls, C134_without. A message is Cmd and the function of its Marshal on the contents of the buffer; panics of messages are recovered by the program. C134_failed: the buffer after a failing message. |
| C135 | NMDC messages of a program | proved | NmdcProgram on LineWriter | NmdcProgramFacts: messages are functions on the environment and the buffer. The frame follows from the bytes appended; induction on the messages and on the calls against the relations of SpecProgram.v; mbuf has no influence. C136: the loop with and without calls of SetEncoder runs in step, since the encoder is loaded once; the functions below WriteLine do not look at the callbacks (C130). C135_frame, C135_nothing, C135_package, C135_calls and its converse C135_all_calls, C135_failed. C135_appends_refuted: without command and payload MarshalTo does not only append. Panics of messages are recovered by the program; callbacks do not panic. |
| C136 | SetEncoder during WriteMsg | proved | NmdcProgram on LineWriter | NmdcProgramFacts: messages are functions on the environment and the buffer. The frame follows from the bytes appended; induction on the messages and on the calls against the relations of SpecProgram.v; mbuf has no influence. C136: the loop with and without calls of SetEncoder runs in step, since the encoder is loaded once; the functions below WriteLine do not look at the callbacks (C130). C136_encoder, C136_during. C136_callback_refuted: SetEncoder in a callback does not hold for the message it was asked about. |
| C137 | Reading NMDC messages of a program | proved | NmdcForeign on LineReader | NmdcForeignFacts: messages are functions on the environment (program state and stored decoder). The choice of the message, the decoding and each line are compared with the relations of SpecForeign.v; induction on the lines and on the calls, for every line reader (its calls are steps of the specification). C137_package: the two models run in step. C138: two runs that differ in calls of SetDecoder run in step, since the decoder of a call is a local variable. C137_calls, C137_return, C137_untouched, C137_chat, C137_package, C137_lawful. C137_type_refuted: a message with the Type of chat messages does not get chat lines unless it is a *ChatMessage. Callbacks do not panic; the messages passed to ReadMsgToAny are distinct. |
| C138 | SetDecoder during ReadMsg | proved | NmdcForeign on LineReader | NmdcForeignFacts: messages are functions on the environment (program state and stored decoder). The choice of the message, the decoding and each line are compared with the relations of SpecForeign.v; induction on the lines and on the calls, for every line reader (its calls are steps of the specification). C137_package: the two models run in step. C138: two runs that differ in calls of SetDecoder run in step, since the decoder of a call is a local variable. C138_call, on streams without line callbacks; that the decoder given by OnUnknownEncoding replaces one set before is part of C137_calls. C138_calls_refuted: the decoder set in a callback holds for the next call. |
| C139 | Unmarshal into the structures of a program | proved | AdcReflect | AdcReflectFacts, AdcReflectPackage, AdcReflectArrive: types and values of fields are data types of the model; the methods of named types are arbitrary functions. Induction on types and fields shows that the functions compute the relations of SpecReflect.v in both directions. C139_package and C140_package: the model agrees with AdcValue on the structures of the package. C141: the words of a structure are found again field by field; C141_packet adds C134_line and C62_roundtrip. C139_decoded, C139_typed, C139_argument, C139_package. C139_truncated_refuted: a field of 16 bits accepts 70000 and holds 4464. Fields of interface types are not modelled; structures, arrays, maps and floats are values without further structure. |
| C140 | Marshal of the structures of a program | proved | AdcReflect | AdcReflectFacts, AdcReflectPackage, AdcReflectArrive: types and values of fields are data types of the model; the methods of named types are arbitrary functions. Induction on types and fields shows that the functions compute the relations of SpecReflect.v in both directions. C139_package and C140_package: the model agrees with AdcValue on the structures of the package. C141: the words of a structure are found again field by field; C141_packet adds C134_line and C62_roundtrip. C140_encoded, C140_argument, C140_message, C140_package, C140_no_panic. C140_panic_refuted: a map field without req makes Marshal panic. |
| C141 | Structures of a program that arrive unchanged | proved | AdcReflect | AdcReflectFacts, AdcReflectPackage, AdcReflectArrive: types and values of fields are data types of the model; the methods of named types are arbitrary functions. Induction on types and fields shows that the functions compute the relations of SpecReflect.v in both directions. C139_package and C140_package: the model agrees with AdcValue on the structures of the package. C141: the words of a structure are found again field by field; C141_packet adds C134_line and C62_roundtrip. C141_roundtrip and C141_packet, with C141_string, _number, _flag, _unsigned, _nil, _pointer, _own for the values that can be carried. C141_*_refuted: single fields that do not arrive although Marshal succeeds. |
| C142 | Reading ADC packets with registered types of a program | proved | AdcForeign | AdcForeignFacts: the map of registered types is part of the state that callbacks and decoding change. The functions are shown to follow the relations of SpecAdcForeign.v call by call; on streams AdcEndToEnd gives the lines, and the relation determines the answers up to the texts of errors. C142_package compares with AdcReader, C142_structure adds C141_packet. C142_calls for every reader, C142_stream and C142_unique on streams, C142_later, C142_again, C142_to for packets already read, C142_package, C142_structure. Callbacks do not panic and do not call the reader; Cmd has no effects. |
| C143 | Line callbacks that call the reader they belong to | proved | LineReentry | LineFuel, LineReentryFacts: a callback is a tree of calls of the reader. ReadLine with such callbacks is related to ReadLine without any by induction on the number of steps, in both directions (LineFuel: more steps do not change a result); C143_zon follows from the session invariant of C99. C143_line and C143_happens (both directions), C143_unique, C143_plain (callbacks without calls: LineReader), C143_zon and C143_zon_anywhere, C143_close, C143_panic. C143_no_panic_refuted: a callback that closes the reader and drops the line makes ReadLine panic, so the property lists this case. ReadLine called by a callback is not modelled. |
| C144 | NMDC callbacks and messages that use the line reader | proved | NmdcReentry | NmdcReentryFacts: the line reader of LineReentry.v is part of the state on which the callbacks and messages of NmdcForeign.v work, and the handling of one line is that of NmdcForeign.v, so C144_calls combines C143 with the proof for one line of C137. C144_zon is by induction on the stream, with the session invariant of C99. C144_calls for all callbacks and messages, C144_zon and C144_zon_anywhere for a program that handles $ZOn, C144_plain (nothing uses the line reader: C137), C144_package (the messages of the package meet the hypotheses). Simplifications as in C137 and C143. |
| C145 | ADC callbacks and messages that use the line reader | proved | AdcReentry | AdcReentryFacts: as C144 on top of AdcForeign.v: C145_calls and C145_happens combine both directions of C143 with the answers of C142; C145_plain (like C144_plain) runs the two models in step; C145_zon is by induction on the stream, with the session invariant of C99. C145_calls and C145_happens for all callbacks and messages, C145_plain (nothing uses the line reader: C142), C145_zon and C145_zon_anywhere for a line callback that handles IZON, C145_close. Simplifications as in C142 and C143. |
| C146 | Line callbacks that call the writer they belong to | proved | WriterReentry | WriterReentryFacts: callbacks are programs (trees of calls), WriteLine in a callback runs the callbacks again and takes fuel; C146_line shows that the function is the mutual relation of SpecWriterReentry.v (by its induction scheme, with monotony in the fuel), where the line behind the callbacks is that of a plain writer (C22-C32); C146_script and C146_insert are by induction on the calls of the callback, C146_recursion by induction on the fuel. C146_line and C146_once for all callbacks; C146_plain (callbacks that call nothing), C146_script (any calls in a callback), C146_insert (lines before each line), C146_recursion, C146_sticky, C146_noticed, C146_close. C146_unnoticed_refuted: nil from WriteLine does not imply nil from Err, if a call in a callback fails and the callback passes the line. A panic ends the program in the model; Timeout does not call the writer. |
| C147 | Callbacks of the message writers that write messages | proved | MsgReentry | MsgReentryFacts: mbuf is a heap of arrays with the current one and its length; a line is a slice of the caller or the first bytes of one of these arrays, so that it changes when they are written; encoders are lists of writes, Grow and assignments to the last byte, callbacks are programs as in C146; by induction on the messages a callback writes, with the invariant that the old array holds the line with the texts over it so far, exactly as far as they fit in the array (holds_all); C147_calm by induction on the fuel; C147_nmdc and C147_adc tie the lists to Marshal and marshal_packet of C33 and C59. C147_message (message callbacks), C147_line (line callbacks; the line is what smear of SpecMsgReentry.v says, for the room of its array), C147_smeared, C147_unsmeared, C147_calm (line callbacks that write no messages), C147_calm_line (then a line has the effect of C146), C147_failed (a message that cannot be encoded), C147_recursion, C147_nmdc and C147_adc (the encoders). C147_line_refuted: the line a line callback passes is not the message it has been given, if it writes others. Growth of the buffer is a parameter; bytes.Buffer is taken to write at its beginning after Reset and to move to a new array only when there is no room. |
| C148 | Line callbacks that call ReadLine of the reader they belong to | proved | LineNest | LineNestFacts: r.line is a heap of arrays as mbuf of C147, a callback is given a slice of it and ReadLine in a callback takes fuel; up to the callbacks ReadLine appends the pieces that a reader without callbacks scans (front, by induction on the fuel), so what is over a line in the memory is that of C147 for these pieces; C148_plain runs the model and that of C143 in step. C148_line (further lines read in the callback), C148_new (a new reader), C148_fails (the input ends), C148_state (the state of the callbacks of the call in the callback), C148_plain (callbacks of C143). C148_kept_refuted: the line passed on is not the line the callback was given. |
| C149 | A Timeout callback that calls the writer it belongs to | proved | TimeoutReentry | TimeoutReentryFacts: Timeout is a program (a tree whose nodes are calls of the writer) and the methods take fuel for the calls in it; the parts of the methods behind Timeout(true) do not depend on the callbacks (fbody_bare, lbody_bare), a callback that does nothing in its state leaves run_op of SpecWriter.v (idle_call), so the calls of a script are those of C146 (calling_makes); errors stay by induction on the program; for any callback the rules udoes, utimed and ucalls of SpecTimeoutReentry.v are given by the methods of LineWriter.v on a writer without callbacks, and the model is sound (induction on fuel) and complete (induction on the rules) for them (TimeoutToldFacts.v). C149_call (any callback and any method: the model does exactly what the rules tell, once), C149_script (any calls of the callback, WriteLine and Flush), C149_write (Write), C149_autoflush, C149_sticky, C149_recursion and C149_endless (never return), C149_nil and C149_swap (Timeout assigned), C149_plain (callbacks that call nothing). C149_order_refuted: after Write a line written by the callback may be left in the buffer. |
| C150 | Line callbacks and a Timeout callback that all call the writer | proved | BothReentry | BothFacts: All callbacks are programs of one kind (the verdict of Timeout is an error or nil) and the methods take fuel for the calls in them; the rules bdoes, basked, btimed and bcalls of SpecBothReentry.v are given by the methods of LineWriter.v on a writer without callbacks, and the model is sound (induction on fuel) and complete (induction on the rules) for them; the writer of C149 is embedded by a map of its programs (call_wide), and so is that of C146 (line_un, line_back). C150_call (any callbacks and any method: the model does exactly what the rules tell, once), C150_plain (line callbacks that call nothing: C149), C150_lines (no Timeout callback: C146), C150_sticky, C150_recursion (callbacks that call each other never return). |

## Behaviour of the code found by the proofs

Each item is a theorem (mostly `_refuted`), or a consequence of the exact theorems named.

Crashes on network input
* A hash text of 40 or more base32 symbols panics in `Hash.UnmarshalBase32` (C23), and so does NMDC `$Search`
  (C51; `$SR`, `$SA` and `$SP` cut the text to 39 bytes first) and ADC `TR`/`PAS` (C66, C100, C101).
* ADC payloads with too few positional words panic in `Unmarshal` (C66, C100).
* A feature packet whose selector list ends in fewer than five bytes panics when the capacity behind it is small, and otherwise takes
  payload bytes as features (C63).  An empty info packet panics.
* `Lock.Key` panics for locks of fewer than two bytes (C53).
* A `Read` of zero bytes without error makes the reader panic while compression is on (C08).

Crashes on API use
* Encoding an empty chat message panics (C50).
* `Writer.Close` twice panics (C14); an invalid zlib level makes later `Flush` and `Close` panic (C15).
* `Leaves.TreeHash` of no leaves panics (C20).

Lost or changed data
* Tree hashes depend on how the reader delivers the data (C19).
* `SetMaxLine` is exceeded by up to 2047 bytes (C03).
* After a temporary read error the rest of a line is returned as a line (C06).
* A failed `EnableZlib` leaves the reader marked as compressed (C08).
* `Binary` with a size of 2^63 or more reads nothing (C05).
* `Write` errors of the writer are not sticky (C10), and `Write`, `DisableZlib` and `Close` bypass the timeout (C11).
* `WriteMsg` silently drops the rest of its messages when a hook drops one (C58).
* `ReadMsg` decodes into a used message after one was dropped (C56, C78); `ReadMsgToAny` with a `RawMessage` accepts one command only (C57).
* A chat line with a second `>` at its end loses bytes (C33); `$` in search patterns turns into spaces (C39); paths in search results stay escaped, and
  any byte before the slots is taken for the separator (C41, C93).
* MyINFO flags `$` and `|` break the line (C37); lengths of 2^63 and more in `$ADCGET` turn negative (C44); single-letter tag keys above `Z`
  are shifted by 32 (C95).
* Texts in an unknown encoding in `$ADCGET`, `$ADCSND` identifiers and user command paths are refused without calling `OnUnknownEncoding`; when the callback
  answers nil, the whole argument text is repaired, so that a MyINFO with the IPv6 flag is refused (C104); within the same call (after a dropped message)
  the next lines are then read without the decoder of the connection.
* `nmdc.Unmarshal` ignores what follows the first message (C54).
* The NMDC key does not determine the lock (C52).
* HTML references wrap at 32 bits, so that `&#4294967332;` reads as `$` (C86; behaviour of Go's `html`).
* ADC: `Fields.UnmarshalADC` does not unescape (C69); boolean `0` is true (C67); numbers with a fraction are accepted and ignored (C68);
  negative status codes do not decode (C70); `GetRequest.Compressed` is never reset (C71); `Path{}` decodes to one empty component, and `/` inside of components
  is not protected; additions win over removals within one `SUP`, and `IsSet` is true for removed features (C73); line breaks inside of a
  password salt lengthen it by zero bytes (C82); base32 groups of 1, 3 or 6 symbols are dropped silently (C101); a repeated named field is an error
  for some kinds, and takes the first value for SIDs, CIDs, hashes, features and paths (C100); the line feed can become part of a SID (C64, C102).
* `dc.ParseAddr` refuses `adchub.example.com` and `ADC://hub:1` (C77).

## Mutation tests

`seeded/LOG.jsonl` has one line per wrong program tried: the definition edited in a scratch copy, the edit, the claim it is
meant to break and the theorems that no longer compile.  "Failed" means that the proof of the theorem or of a lemma it depends on breaks; where
`examples_failed` is not empty, a computed example beside a theorem changed as well.  Edits which no theorem noticed at first,
and the theorems tightened because of them, are recorded in the same line.  Edits after which nothing fails
because they do not change the behaviour are noted as equivalent.
Edits that change the behaviour and that no theorem notices are noted as open; runs that stopped before a theorem was reached
(an edit that is not well-formed, or a failure of the scratch copy) say so in their note and are no evidence either way.

## Not modelled

* Network connections and dialing (`net`, `crypto/tls`). The repository starts no goroutines and has no locks; a reader or writer is
  used by one goroutine, except for SetDecoder and SetEncoder (atomic values), which may be called at any time (C136, C138).
* The Tiger and SHA-256 functions, zlib (any self-delimiting compressor), PEM and X.509 parsing, `url.Parse` beyond scheme and host.
* `String` methods for logging.
* Callbacks that recover from a panic, and deferred calls while the program panics. Calls of the reader in callbacks are C143, C144, C145 and C148, calls of the writer in its line callbacks C146 and C147, in Timeout C149, in both C150, SetDecoder and SetEncoder in callbacks C126, C136, C138.
* Performance; allocation and aliasing except for the line buffer (C127-C129): all other results are copies in the code (strings, `append([]byte{}, ...)`, `make`). Hooks that keep slices and write to them later.
